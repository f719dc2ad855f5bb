(** C100: commands that merely begin with the name of a layout command are not touched. *)
From Coq Require Import List NArith PeanoNat Lia Bool String.
From Verif Require Import PyStr Regex RegexLemmas RegexAbs Json StyleModel StyleSpec FormatModel FormatSpec FormatProofs FormatProofs2.
Import ListNotations. Notation length := List.length. Notation concat := List.concat. Open Scope list_scope.

Definition letters : list N := map N.of_nat (seq 65 26 ++ seq 97 26).
Lemma letters_all : forall x, letter x -> In x letters.
Proof. intros x L. unfold letters. apply in_map_iff. exists (N.to_nat x). split; [apply N2Nat.id|]. apply in_or_app. unfold letter in L. destruct L; [left|right]; apply List.in_seq; lia. Qed.
Definition exceptions : list (string * ch) := [("par"%string, 105%N); ("par"%string, 115%N); ("par"%string, 116%N); ("hfil"%string, 108%N); ("vfil"%string, 108%N); ("newpage"%string, 115%N)].
Definition unknown_prefix (u : ch -> bool) (p : str) : bool := forallb (fun e => String.eqb (fst e) "make_or_contents" || dead p (fst (snd e))) (TABLE u) && dead p (MKREST u).
Definition check (u : ch -> bool) : bool :=
  forallb (fun w => forallb (fun x => existsb (fun e => String.eqb (fst e) w && N.eqb (snd e) x) exceptions || unknown_prefix u ((lit "\" ++ lit w) ++ [x])) letters) (removed ++ new_line).
Lemma check_ok : forall u, check u = true. Proof. intros u. vm_compute. reflexivity. Qed.
Lemma make_entry : forall u e, In e (TABLE u) -> String.eqb (fst e) "make_or_contents" = true -> fst (snd e) = P_make_or_contents u.
Proof. intros u e I E. unfold TABLE in I. repeat (destruct I as [<-|I]; [first [discriminate E|reflexivity]|]). destruct I. Qed.
Theorem longer_ok : forall u quantize word x s rest prev, In word (removed ++ new_line) -> letter x -> ~ continued word x -> Forall letter s -> (forall a b, lit word ++ x :: s <> a ++ lit "maketitle" ++ b) -> name_over u rest ->
  fmt_handle u quantize [] prev (lit "\" ++ lit word ++ x :: s ++ rest) = Ok (None, 0, prev).
Proof.
  intros u quantize word x s rest prev I L C Ls M O.
  assert (U : unknown_prefix u ((lit "\" ++ lit word) ++ [x]) = true).
  { pose proof (check_ok u) as K. unfold check in K. apply (proj1 (forallb_forall _ _) K) in I. pose proof (proj1 (forallb_forall _ _) I x (letters_all _ L)) as Q. cbv beta in Q. apply Bool.orb_true_iff in Q as [Q|Q]; [|exact Q].
    destruct C. apply existsb_exists in Q as ((w', x') & Iw & Q). cbn [fst snd] in Q. apply Bool.andb_true_iff in Q as (Q1 & Q2). apply String.eqb_eq in Q1. apply N.eqb_eq in Q2. subst. exact Iw. }
  unfold unknown_prefix in U. apply Bool.andb_true_iff in U as (U1 & U2).
  assert (Et : lit "\" ++ lit word ++ x :: s ++ rest = ((lit "\" ++ lit word) ++ [x]) ++ s ++ rest) by (rewrite <- !app_assoc; reflexivity).
  assert (Mk : re_match_at (P_make_or_contents u) (lit "\" ++ lit word ++ x :: s ++ rest) 0 = None).
  { destruct (re_match_at (P_make_or_contents u) (lit "\" ++ lit word ++ x :: s ++ rest) 0) as [m|] eqn:E; [|reflexivity]. exfalso. apply match_rel in E as (_ & R). apply (make_inv u) in R as [(k & R & _)|R].
    - assert (E2 : lit "\" ++ lit word ++ x :: s ++ rest = c_bs :: (lit word ++ x :: s) ++ rest) by (rewrite <- app_assoc; reflexivity). rewrite E2 in R. apply mk1_inv in R as (n & d & E & _); [exact (M n d E)|]. intros y r. apply (over_name u). exact O.
    - rewrite Et in R. exact (dead_rel _ _ _ _ U2 R). }
  unfold fmt_handle. assert (All : forall T, (forall e, In e T -> In e (TABLE u)) -> try_table quantize T [] (lit "\" ++ lit word ++ x :: s ++ rest) prev = Ok (None, 0, prev)); [|apply All; auto].
  induction T as [|(name, (r, a)) T IH]; intros S; [reflexivity|]. cbn [try_table existsb].
  assert (N : re_match_at r (lit "\" ++ lit word ++ x :: s ++ rest) 0 = None).
  { pose proof (proj1 (forallb_forall _ _) U1 _ (S _ (or_introl eq_refl))) as Q. cbv beta in Q. apply Bool.orb_true_iff in Q as [Q|Q]; [rewrite (make_entry u _ (S _ (or_introl eq_refl)) Q : r = _); exact Mk|]. rewrite Et. apply dead_none. exact Q. }
  rewrite N. apply IH. intros e Ie. apply S. right. exact Ie.
Qed.
