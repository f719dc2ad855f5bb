From Coq Require Import List NArith ZArith PeanoNat Lia Bool String.
From Verif Require Import PyStr Json JsonTextModel JsonTextSpec JsonTextProofs JsonTextProofs2.
From Verif Require UnicodeModel UnicodeCases ContentProofs6.
Import ListNotations. Notation length := List.length. Notation concat := List.concat. Open Scope list_scope.

Lemma write_inj : forall v v', write v = write v' -> v = v'.
Proof. intros v v' E. apply write_unique. rewrite <- E. apply write_ok. Qed.
Lemma answer_ok : forall tokens cm, denotes (answer_text tokens cm) (VDict [(lit "tokens", VList tokens); (lit "color_map", VDict cm)]).
Proof. intros. apply write_ok. Qed.
Lemma answer_only : forall tokens cm v, denotes (answer_text tokens cm) v -> v = VDict [(lit "tokens", VList tokens); (lit "color_map", VDict cm)].
Proof. intros tokens cm v H. apply write_unique. exact H. Qed.

(** * Which answers can be encoded *)
Definition clean (s : str) : Prop := forall x, In x s -> ~ surrogate_code x.
Lemma surrogate_iff : forall x, surrogate x = true <-> surrogate_code x.
Proof. intros x. unfold surrogate, surrogate_code. rewrite andb_true_iff, !N.leb_le. tauto. Qed.
Lemma encodable_iff : forall s, encodable s = true <-> clean s.
Proof.
  intros s. unfold encodable, clean. rewrite forallb_forall. split; intros H x I.
  - specialize (H x I). rewrite <- surrogate_iff. destruct (surrogate x); [discriminate H|discriminate].
  - specialize (H x I). rewrite <- surrogate_iff in H. destruct (surrogate x); [exfalso; apply H; reflexivity|reflexivity].
Qed.
Lemma clean_app : forall a b, clean (a ++ b) <-> clean a /\ clean b.
Proof. intros a b. unfold clean. split; [intros H; split; intros x I; apply H, in_app_iff; auto|]. intros [H1 H2] x I. apply in_app_iff in I as [I|I]; auto. Qed.
Lemma small_clean : forall s, forallb (fun x => x <? 1000)%N s = true -> clean s.
Proof. intros s H x I. rewrite forallb_forall in H. specialize (H x I). apply N.ltb_lt in H. unfold surrogate_code. lia. Qed.
Lemma escape_clean : forall x, clean (escape_char x) <-> ~ surrogate_code x.
Proof.
  intros x. unfold escape_char.
  assert (Z : forall y t, x = y -> (y < 1000)%N -> forallb (fun x => x <? 1000)%N t = true -> (clean t <-> ~ surrogate_code x)).
  { intros y t -> L Ht. split; intros _; [unfold surrogate_code; lia|apply small_clean, Ht]. }
  repeat match goal with |- context [if (x =? ?n)%N then _ else _] => destruct (x =? n)%N eqn:?E; [apply N.eqb_eq in E; apply (Z n); [exact E|lia|reflexivity]|clear E] end.
  destruct (x <? 32)%N eqn:E8; [apply N.ltb_lt in E8|].
  - split; intros _; [unfold surrogate_code; lia|]. apply small_clean.
    assert (Q : (x / 16 < 16)%N) by (apply N.div_lt_upper_bound; lia). assert (R : (x mod 16 < 16)%N) by (apply N.mod_lt; lia).
    cbn [forallb]. unfold hex_char. repeat (apply andb_true_intro; split); try reflexivity; apply N.ltb_lt; destruct (_ <? 10)%N; lia.
  - split; [intros H; apply H; left; reflexivity|]. intros H y [<-|[]]. exact H.
Qed.
Lemma write_str_clean : forall s, clean (write_str s) <-> clean s.
Proof.
  intros s. unfold write_str. rewrite !clean_app. assert (Q : clean [34%N]) by (apply small_clean; reflexivity).
  assert (M : clean (concat (map escape_char s)) <-> clean s).
  { induction s as [|x s IH]; [reflexivity|]. cbn [map List.concat]. rewrite clean_app, IH, escape_clean. change (x :: s) with ([x] ++ s). rewrite clean_app.
    assert (S1 : clean [x] <-> ~ surrogate_code x) by (split; [intros H; apply H; left; reflexivity|intros H y [<-|[]]; exact H]). rewrite S1. tauto. }
  rewrite M. tauto.
Qed.
Lemma join_clean : forall sep l, clean sep -> (clean (join sep l) <-> forall s, In s l -> clean s).
Proof.
  intros sep l Hs. induction l as [|a l IH]; [split; [intros _ s []|intros _ x []]|]. destruct l as [|b l].
  - cbn [join]. split; [intros H s [<-|[]]; exact H|intros H; apply H; left; reflexivity].
  - rewrite join_cons by discriminate. rewrite !clean_app, IH. split.
    + intros (H1 & _ & H2) s [<-|I]; auto.
    + intros H. split; [apply H; left; reflexivity|]. split; [exact Hs|]. intros s I. apply H. right. exact I.
Qed.
Lemma write_clean : forall v, clean (write v) <-> (forall s, inside s v -> clean s).
Proof.
  intros v. remember (vsize v) as n eqn:En. assert (L : vsize v <= n) by lia. clear En. revert v L.
  induction n as [|n IH]; intros v L; [destruct v; cbn in L; lia|]. destruct v as [|b|z|s|l|d].
  - split; [intros _ s H; inversion H|intros _; apply small_clean; reflexivity].
  - split; [intros _ s H; inversion H|intros _; destruct b; apply small_clean; reflexivity].
  - split; [intros _ s H; inversion H|intros _]. apply small_clean.
    assert (D : forall n, forallb (fun x => x <? 1000)%N (str_of_nat n) = true).
    { intros m. pose proof (str_of_nat_digits m) as D. rewrite forallb_forall in *. intros x I. specialize (D x I). apply ContentProofs6.digit_iff in D. apply N.ltb_lt. lia. }
    destruct z; cbn [write write_int]; [apply D|apply D|]. cbn [forallb]. rewrite D. reflexivity.
  - cbn [write]. rewrite write_str_clean. split; [intros H t I; inversion I; subst; exact H|intros H; apply H; constructor].
  - cbn [write]. rewrite !clean_app, join_clean by (apply small_clean; reflexivity). rewrite vsize_list in L. split.
    + intros (_ & H & _) s I. inversion I as [|v l' Iv Is| |]; subst. pose proof (in_lsize _ _ Iv). refine (proj1 (IH v _) _ s Is); [lia|]. apply H. apply in_map. exact Iv.
    + intros H. split; [apply small_clean; reflexivity|]. split; [|apply small_clean; reflexivity]. intros t I. apply in_map_iff in I as (v & <- & I). pose proof (in_lsize _ _ I). apply (IH v); [lia|].
      intros s Hs. apply H. eapply inside_list; eassumption.
  - cbn [write]. rewrite !clean_app. change (map (fun kv : str * val => let (k, x) := kv in write_str k ++ lit ": " ++ write x) d) with (map write_member d). rewrite join_clean by (apply small_clean; reflexivity). rewrite vsize_dict in L.
    assert (W : forall k v, clean (write_member (k, v)) <-> clean k /\ clean (write v)).
    { intros k v. unfold write_member. rewrite !clean_app, write_str_clean. assert (Q : clean (lit ": ")) by (apply small_clean; reflexivity). tauto. }
    split.
    + intros (_ & H & _) s I. inversion I as [| |v d' Ik|k v d' Iv Is]; subst.
      * exact (proj1 (proj1 (W s v) (H _ (in_map write_member _ _ Ik)))).
      * pose proof (in_dsize _ _ _ Iv). refine (proj1 (IH v _) _ s Is); [lia|]. exact (proj2 (proj1 (W k v) (H _ (in_map write_member _ _ Iv)))).
    + intros H. split; [apply small_clean; reflexivity|]. split; [|apply small_clean; reflexivity]. intros t I. apply in_map_iff in I as ((k & v) & <- & I). apply W. split.
      * apply H. eapply inside_key; exact I.
      * pose proof (in_dsize _ _ _ I). apply (IH v); [lia|]. intros s Hs. apply H. eapply inside_dict; eassumption.
Qed.
Lemma encodable_answer : forall tokens cm, encodable (answer_text tokens cm) = true <->
  (forall s x, inside s (VList tokens) \/ inside s (VDict cm) -> In x s -> ~ surrogate_code x).
Proof.
  intros tokens cm. rewrite encodable_iff. unfold answer_text. rewrite write_clean. split.
  - intros H s x [I|I]; apply H; (eapply inside_dict; [|exact I]); [left; reflexivity|right; left; reflexivity].
  - intros H s I x Hx. inversion I as [| |v d' Ik|k v d' Iv Is]; subst.
    + destruct Ik as [E|[E|[]]]; injection E as <- _; cbn in Hx; repeat (destruct Hx as [<-|Hx]; [unfold surrogate_code; vm_compute; intuition discriminate|]); destruct Hx.
    + destruct Iv as [E|[E|[]]]; injection E as <- <-; apply (H s x); auto.
Qed.
Lemma pair_not_encodable : encodable (answer_text [VDict [(lit "type", VStr (lit "text")); (lit "content", VStr (UnicodeModel.convert (lit "\ud83d\ude00")))]] []) = false.
Proof. rewrite UnicodeCases.surrogates. vm_compute. reflexivity. Qed.
Lemma text_case : answer_text [VDict [(lit "type", VStr (lit "text")); (lit "content", VStr ([8364; 34; 10]%N ++ lit "\a")); (lit "level", VInt (-12))]] [] =
  lit "{""tokens"": [{""type"": ""text"", ""content"": """ ++ [8364%N] ++ lit "\""\n\\a"", ""level"": -12}], ""color_map"": {}}".
Proof. vm_compute. reflexivity. Qed.
Lemma other_text : denotes (lit "{ ""k"":[ 1 ,""\u00E9\/""]}") (VDict [(lit "k", VList [VInt 1; VStr [233%N; 47%N]])]) /\ write (VDict [(lit "k", VList [VInt 1; VStr [233%N; 47%N]])]) <> lit "{ ""k"":[ 1 ,""\u00E9\/""]}".
Proof.
  split; [|discriminate]. apply (d_object (lit " ""k"":[ 1 ,""\u00E9\/""]")).
  apply (m_last (lit " ") (lit "k") (lit "k") [] [] (lit "[ 1 ,""\u00E9\/""]") []); auto using white_nil, white_sp.
  - apply chars_plain; try (vm_compute; discriminate). apply chars_end.
  - apply (d_array (lit " 1 ,""\u00E9\/""")). apply (e_more (lit " ") (lit "1") (lit " ") (VInt 1) (lit """\u00E9\/""")); auto using white_sp.
    + apply (d_int (lit "1")). split; [discriminate|]. split; [reflexivity|]. intros r H. discriminate H.
    + apply (e_last [] (lit """\u00E9\/""") []); auto using white_nil. apply (d_string (lit "\u00E9\/")).
      apply (chars_code 48%N 48%N 69%N 57%N 0%N 0%N 14%N 9%N (lit "\/") [47%N]); try reflexivity. apply (chars_short 47%N 47%N); [vm_compute; tauto|apply chars_end].
Qed.
