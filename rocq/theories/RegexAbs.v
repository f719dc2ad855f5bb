(** An over-approximation of the matcher on a text of which only a beginning is known: it is used to
    show by computation that a pattern does not match any text that begins so. *)
From Coq Require Import List NArith PeanoNat Lia Bool.
From Verif Require Import PyStr Regex RegexLemmas.
Import ListNotations.

Inductive apos := At (k : nat) | Far.
Fixpoint astar (step : nat -> list apos) (fuel i : nat) : list apos :=
  match fuel with
  | O => [Far]
  | S f => At i :: flat_map (fun q => match q with At k => if Nat.ltb i k then astar step f k else [] | Far => [Far] end) (step i)
  end.
Section Abs.
Variable p : str.
(** the positions in [p] that a match from [i] may end at; [Far]: it may go on behind [p] *)
Fixpoint am (r : re) (i : nat) : list apos :=
  match r with
  | REps => [At i]
  | RChr f => match nth_error p i with Some x => if f x then [At (S i)] else [] | None => [Far] end
  | RSeq a b => flat_map (fun q => match q with At k => am b k | Far => [Far] end) (am a i)
  | RAlt a b => am a i ++ am b i
  | RStar _ a => astar (am a) (S (length p - i)) i
  | RGrp _ a => am a i
  | REnd => if Nat.leb (i + 2) (length p) then [] else [At i]
  | RStart => if Nat.eqb i 0 then [At i] else []
  | RAhead false a => match am a i with [] => [] | _ => [At i] end
  | RAhead true _ => [At i]
  | RBehind neg f => if xorb neg (prev_is f p i) then [At i] else []
  | RBound w => if Nat.ltb i (length p) then (if xorb (prev_is w p i) (next_is w p i) then [At i] else []) else [At i]
  end.
Definition may (l : list apos) (j : nat) : Prop := In Far l \/ (j <= length p /\ In (At j) l).
Lemma nth_app_some : forall (rest : str) i x, nth_error p i = Some x -> nth_error (p ++ rest) i = Some x.
Proof. intros rest i x H. rewrite nth_error_app1; [exact H|]. apply nth_error_Some. congruence. Qed.
Lemma prev_same : forall f (rest : str) i, i <= length p -> prev_is f (p ++ rest) i = prev_is f p i.
Proof. intros f rest [|i] L; [reflexivity|]. cbn. rewrite nth_error_app1 by lia. reflexivity. Qed.
Lemma next_same : forall f (rest : str) i, i < length p -> next_is f (p ++ rest) i = next_is f p i.
Proof. intros f rest i L. unfold next_is. rewrite nth_error_app1 by lia. reflexivity. Qed.
Definition holds (r : re) (i j : nat) : Prop := match r with RStar _ a => forall fuel, length p - i < fuel -> may (astar (am a) fuel i) j | _ => may (am r i) j end.
Lemma holds_may : forall r i j, holds r i j -> may (am r i) j.
Proof. intros r i j H. destruct r; try exact H. cbn [am]. apply H. lia. Qed.
Lemma am_holds : forall r t i j, rel r t i j -> forall rest, t = p ++ rest -> i <= length p -> holds r i j.
Proof.
  intros r t i j R. induction R as [t i|f t i x E F|a b t i j k R1 IH1 R2 IH2|a b t i j R IH|a b t i j R IH|g a t i|g a t i j k R1 IH1 L R2 IH2|n a t i j R IH|t i E|t|a t i j R IH|a t i N|neg f t i X|wf t i X]; intros rest -> Li.
  - right. split; [exact Li|left; reflexivity].
  - cbn [holds am]. destruct (nth_error p i) as [y|] eqn:Ep; [|left; left; reflexivity]. rewrite (nth_app_some rest i y Ep) in E. injection E as ->. rewrite F. right. split; [|left; reflexivity].
    assert (i < length p) by (apply nth_error_Some; congruence). lia.
  - cbn [holds am]. destruct (holds_may _ _ _ (IH1 rest eq_refl Li)) as [F|(Lj & I)]; [left; apply in_flat_map; exists Far; split; [exact F|left; reflexivity]|].
    destruct (holds_may _ _ _ (IH2 rest eq_refl Lj)) as [F|(Lk & I2)]; [left|right; split; [exact Lk|]]; apply in_flat_map; exists (At j); auto.
  - cbn [holds am]. destruct (holds_may _ _ _ (IH rest eq_refl Li)) as [F|(Lj & I)]; [left|right; split; [exact Lj|]]; apply in_or_app; auto.
  - cbn [holds am]. destruct (holds_may _ _ _ (IH rest eq_refl Li)) as [F|(Lj & I)]; [left|right; split; [exact Lj|]]; apply in_or_app; auto.
  - cbn [holds]. intros [|fuel] Lf; [lia|]. right. split; [exact Li|]. cbn [astar]. left. reflexivity.
  - cbn [holds]. intros [|fuel] Lf; [lia|]. cbn [astar]. destruct (holds_may _ _ _ (IH1 rest eq_refl Li)) as [F|(Lj & I)].
    + left. right. apply in_flat_map. exists Far. split; [exact F|left; reflexivity].
    + assert (Lt : Nat.ltb i j = true) by (apply Nat.ltb_lt; exact L). specialize (IH2 rest eq_refl Lj fuel ltac:(lia)).
      destruct IH2 as [F|(Lk & I2)]; [left|right; split; [exact Lk|]]; right; apply in_flat_map; exists (At j); (split; [exact I|]); rewrite Lt; assumption.
  - cbn [holds am]. exact (holds_may _ _ _ (IH rest eq_refl Li)).
  - cbn [holds am]. destruct (Nat.leb (i + 2) (length p)) eqn:El; [|right; split; [exact Li|left; reflexivity]]. exfalso. apply Nat.leb_le in El.
    unfold at_end in E. assert (Ln : length (skipn i (p ++ rest)) >= 2) by (rewrite skipn_length, app_length; lia). destruct (skipn i (p ++ rest)) as [|a [|b q]]; cbn in *; try lia; discriminate.
  - right. split; [lia|left; reflexivity].
  - cbn [holds am]. destruct (holds_may _ _ _ (IH rest eq_refl Li)) as [F|(Lj & I)]; right; (split; [exact Li|]); destruct (am a i); [destruct F|left; reflexivity|destruct I|left; reflexivity].
  - right. split; [exact Li|left; reflexivity].
  - cbn [holds am]. rewrite (prev_same f rest i Li) in X. rewrite X. right. split; [exact Li|left; reflexivity].
  - cbn [holds am]. rewrite (prev_same wf rest i Li) in X. destruct (Nat.ltb i (length p)) eqn:El; [|right; split; [exact Li|left; reflexivity]]. apply Nat.ltb_lt in El. rewrite (next_same wf rest i El) in X. rewrite X. right. split; [exact Li|left; reflexivity].
Qed.
(** no text that begins with [p] matches at the beginning *)
Definition dead (r : re) : bool := match am r 0 with [] => true | _ => false end.
Lemma dead_none : forall r rest, dead r = true -> re_match_at r (p ++ rest) 0 = None.
Proof.
  intros r rest D. unfold re_match_at. destruct (rm r (p ++ rest) 0 []) as [|(j, c) l] eqn:E; [reflexivity|]. exfalso.
  assert (I : In (j, c) (rm r (p ++ rest) 0 [])) by (rewrite E; left; reflexivity). apply rm_sound in I; [|lia].
  destruct (holds_may _ _ _ (am_holds _ _ _ _ I rest eq_refl (le_0_n _))) as [F|(_ & F)]; unfold dead in D; destruct (am r 0); try discriminate; exact F.
Qed.

(** * Matches that are there whatever follows, provided that no word goes on *)
Fixpoint mu (r : re) (i : nat) : list nat :=
  match r with
  | REps => [i]
  | RChr f => match nth_error p i with Some x => if f x then [S i] else [] | None => [] end
  | RSeq a b => flat_map (mu b) (mu a i)
  | RAlt a b => mu a i ++ mu b i
  | RStar _ a => i :: filter (Nat.ltb i) (mu a i)
  | RGrp _ a => mu a i
  | REnd => []
  | RStart => if Nat.eqb i 0 then [i] else []
  | RAhead false a => match mu a i with [] => [] | _ => [i] end
  | RAhead true _ => []
  | RBehind neg f => if xorb neg (prev_is f p i) then [i] else []
  | RBound f => if Nat.ltb i (length p) then (if xorb (prev_is f p i) (next_is f p i) then [i] else []) else if prev_is f p i then [i] else []
  end.
(** the classes of word characters in the pattern do not hold of the next character *)
Fixpoint bok (rest : str) (r : re) : Prop :=
  match r with
  | RSeq a b | RAlt a b => bok rest a /\ bok rest b
  | RStar _ a | RGrp _ a | RAhead _ a => bok rest a
  | RBound f => next_is f rest 0 = false
  | _ => True
  end.
Lemma next_tail : forall f rest, next_is f (p ++ rest) (length p) = next_is f rest 0.
Proof. intros f rest. unfold next_is. rewrite nth_error_app2 by lia. rewrite Nat.sub_diag. reflexivity. Qed.
Lemma mu_sound : forall r rest i j, bok rest r -> i <= length p -> In j (mu r i) -> j <= length p /\ rel r (p ++ rest) i j.
Proof.
  induction r as [|f|a IHa b IHb|a IHa b IHb|g a IHa|n a IHa| | |neg a IHa|neg f|f]; intros rest i j B L I; cbn [mu] in I; cbn [bok] in B.
  - destruct I as [<-|[]]. split; [exact L|constructor].
  - destruct (nth_error p i) as [x|] eqn:E; [|destruct I]. destruct (f x) eqn:F; [|destruct I]. destruct I as [<-|[]]. assert (i < length p) by (apply nth_error_Some; congruence). split; [lia|]. apply rel_chr with (x := x); [apply nth_app_some; exact E|exact F].
  - destruct B as (Ba & Bb). apply in_flat_map in I as (k & I1 & I2). destruct (IHa rest i k Ba L I1) as (Lk & R1). destruct (IHb rest k j Bb Lk I2) as (Lj & R2). split; [exact Lj|]. econstructor; eassumption.
  - destruct B as (Ba & Bb). apply in_app_or in I as [I|I]; [destruct (IHa rest i j Ba L I) as (Lj & R); split; [exact Lj|apply rel_altl; exact R]|destruct (IHb rest i j Bb L I) as (Lj & R); split; [exact Lj|apply rel_altr; exact R]].
  - destruct I as [<-|I]; [split; [exact L|constructor]|]. apply filter_In in I as (I & Lt). apply Nat.ltb_lt in Lt. destruct (IHa rest i j B L I) as (Lj & R). split; [exact Lj|]. eapply rel_star1; [exact R|exact Lt|constructor].
  - destruct (IHa rest i j B L I) as (Lj & R). split; [exact Lj|constructor; exact R].
  - destruct I.
  - destruct (Nat.eqb_spec i 0) as [->|_]; [|destruct I]. destruct I as [<-|[]]. split; [lia|constructor].
  - destruct neg; [destruct I|]. destruct (mu a i) as [|k l] eqn:E; [destruct I|]. destruct I as [<-|[]]. split; [exact L|]. destruct (IHa rest i k B L) as (_ & R); [rewrite E; left; reflexivity|]. eapply rel_ahead. exact R.
  - destruct (xorb neg (prev_is f p i)) eqn:X; [|destruct I]. destruct I as [<-|[]]. split; [exact L|]. apply rel_behind. rewrite prev_same by exact L. exact X.
  - destruct (Nat.ltb i (length p)) eqn:El.
    + apply Nat.ltb_lt in El. destruct (xorb (prev_is f p i) (next_is f p i)) eqn:X; [|destruct I]. destruct I as [<-|[]]. split; [exact L|]. apply rel_bound. rewrite prev_same by exact L. rewrite next_same by exact El. exact X.
    + apply Nat.ltb_ge in El. destruct (prev_is f p i) eqn:X; [|destruct I]. destruct I as [<-|[]]. split; [exact L|]. apply rel_bound. rewrite prev_same by exact L. rewrite X. assert (i = length p) as -> by lia. rewrite next_tail, B. reflexivity.
Qed.
(** the match ends at [n] *)
Lemma match_end : forall r (t : str) n, rel r t 0 n -> (forall j, rel r t 0 j -> j = n) -> exists m, re_match_at r t 0 = Some m /\ m_start m = 0 /\ m_end m = n.
Proof.
  intros r t n R U. destruct (rm_complete _ _ _ _ R (le_0_n _) []) as (c & I). unfold re_match_at. destruct (rm r t 0 []) as [|(j, c') l] eqn:E; [destruct I|]. eexists. split; [reflexivity|]. split; [reflexivity|]. cbn [m_end].
  apply U. assert (I' : In (j, c') (rm r t 0 [])) by (rewrite E; left; reflexivity). apply rm_sound in I'; [exact I'|lia].
Qed.
Definition ends_only (r : re) (n : nat) : bool := forallb (fun q => match q with At k => Nat.eqb k n | Far => false end) (am r 0).
Definition ends_at (r : re) (n : nat) : bool := existsb (Nat.eqb n) (mu r 0).
Lemma only_end : forall r rest n j, ends_only r n = true -> rel r (p ++ rest) 0 j -> j = n.
Proof.
  intros r rest n j E R. unfold ends_only in E. rewrite forallb_forall in E. destruct (holds_may _ _ _ (am_holds _ _ _ _ R rest eq_refl (le_0_n _))) as [F|(_ & F)]; specialize (E _ F); cbn in E; [discriminate|]. apply Nat.eqb_eq in E. exact E.
Qed.
Lemma some_end : forall r rest n, bok rest r -> ends_at r n = true -> rel r (p ++ rest) 0 n.
Proof. intros r rest n B E. unfold ends_at in E. apply existsb_exists in E as (k & I & Ek). apply Nat.eqb_eq in Ek. subst k. exact (proj2 (mu_sound r rest 0 n B (le_0_n _) I)). Qed.
End Abs.
