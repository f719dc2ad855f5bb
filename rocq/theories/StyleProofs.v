(** C86: proofs for the style commands. *)
From Coq Require Import List NArith PeanoNat Lia Bool String.
From Verif Require Import PyStr Regex RegexLemmas RegexHead Json TexUtilsModel DelimSpec DelimProofs TextModel TextProofs BuilderModel ContentModel CommandModel CommandProofs2 BoxModel StyleModel StyleSpec ParseReadProofs3.
Import ListNotations. Notation length := List.length. Notation concat := List.concat. Open Scope list_scope.

(** * Names followed by something that is not a letter *)
Definition next_letter (r : str) : bool := match r with x :: _ => is_letter x | [] => false end.
(** a name that continues another one continues it with a letter *)
Definition continued (names : list str) : Prop :=
  forall n n' y z, In n names -> In n' names -> n' = n ++ y :: z -> is_letter y = true.
Fixpoint strip_prefix (n n' : str) : option str :=
  match n, n' with [], _ => Some n' | x :: n, y :: n' => if N.eqb x y then strip_prefix n n' else None | _ :: _, [] => None end.
Lemma strip_prefix_app : forall n r, strip_prefix n (n ++ r) = Some r.
Proof. induction n as [|x n IH]; intros r; cbn; [reflexivity|]. rewrite N.eqb_refl. apply IH. Qed.
Definition continuedb (names : list str) : bool :=
  forallb (fun n => forallb (fun n' => match strip_prefix n n' with Some (y :: _) => is_letter y | _ => true end) names) names.
Lemma continuedb_ok : forall names, continuedb names = true -> continued names.
Proof.
  intros names H n n' y z I I' E. unfold continuedb in H. rewrite forallb_forall in H. specialize (H n I). rewrite forallb_forall in H. specialize (H n' I').
  subst n'. rewrite strip_prefix_app in H. exact H.
Qed.
(** two prefixes of a text: one is a prefix of the other *)
Lemma prefixes : forall (a b x y : str), a ++ x = b ++ y -> (exists z, b = a ++ z) \/ (exists z, a = b ++ z).
Proof.
  induction a as [|u a IH]; intros b x y E; [left; exists b; reflexivity|]. destruct b as [|v b]; [right; exists (u :: a); reflexivity|].
  injection E as -> E. destruct (IH b x y E) as [[z ->]|[z ->]]; [left|right]; exists z; reflexivity.
Qed.
Definition after_name (g : nat) (k : re) (t : str) (i : nat) (l : list (nat * caps)) : list (nat * caps) :=
  flat_map (fun jc => rm (RSeq (RAhead true (RChr is_letter)) k) t (fst jc) (snd jc)) (map (fun jc => (fst jc, (g, (i, fst jc)) :: snd jc)) l).
Lemma after_app : forall g k t i a b, after_name g k t i (a ++ b) = after_name g k t i a ++ after_name g k t i b.
Proof. intros. unfold after_name. rewrite map_app, flat_map_app. reflexivity. Qed.
Lemma names_after : forall g names k t i c name rest, names <> [] -> continued (name :: names) -> ~ In name names -> i <= length t ->
  skipn i t = name ++ rest -> next_letter rest = false ->
  after_name g k t i (rm (ralt (map (fun n => rstr n) names)) t i c) = [].
Proof.
  intros g names k t i c name rest. induction names as [|n names IH]; intros NN C NI Hi E Hr; [congruence|].
  assert (Cr : continued (name :: names)). { intros a b y z Ia Ib. apply C; cbn in *; tauto. }
  assert (One : after_name g k t i (rm (rstr n) t i c) = []).
  { rewrite rm_rstr. destruct (startswith (skipn i t) n) eqn:S; [|reflexivity]. unfold after_name. cbn [map flat_map fst snd]. rewrite app_nil_r. cbn [rm].
    apply startswith_spec in S as (y & S). rewrite E in S. unfold next_is. rewrite nth_error_skipn.
    assert (F : skipn (i + length n) t = y). { rewrite <- E in S. exact (skipn_more t i n y S). } rewrite F.
    destruct (prefixes name n rest y S) as [[z ->]|[z ->]].
    - destruct z as [|a z]; [exfalso; apply NI; left; rewrite app_nil_r; reflexivity|]. rewrite <- app_assoc in S. apply app_inv_head in S. subst rest. cbn in Hr.
      rewrite (C name (name ++ a :: z) a z (or_introl eq_refl) (or_intror (or_introl eq_refl)) eq_refl) in Hr. discriminate.
    - destruct z as [|a z]; [exfalso; apply NI; left; rewrite app_nil_r; reflexivity|]. rewrite <- app_assoc in S. apply app_inv_head in S. subst y. cbn [List.app].
      rewrite (C n (n ++ a :: z) a z (or_intror (or_introl eq_refl)) (or_introl eq_refl) eq_refl). cbn [nilb negb xorb]. reflexivity. }
  cbn [map]. destruct names as [|n2 names].
  - cbn [map ralt]. exact One.
  - change (ralt (rstr n :: map (fun n => rstr n) (n2 :: names))) with (RAlt (rstr n) (ralt (map (fun n => rstr n) (n2 :: names)))).
    change (rm (RAlt (rstr n) (ralt (map (fun n => rstr n) (n2 :: names)))) t i c) with (rm (rstr n) t i c ++ rm (ralt (map (fun n => rstr n) (n2 :: names))) t i c).
    rewrite after_app. rewrite One. apply IH; [discriminate|exact Cr|cbn in NI |- *; tauto|exact Hi|exact E|exact Hr].
Qed.
Lemma names_hit : forall g names k t i c name rest, continued names -> NoDup names -> In name names -> i <= length t ->
  skipn i t = name ++ rest -> next_letter rest = false ->
  rm (RSeq (RGrp g (ralt (map (fun n => rstr n) names))) (RSeq (RAhead true (RChr is_letter)) k)) t i c = rm k t (i + length name) ((g, (i, i + length name)) :: c).
Proof.
  intros g names k t i c name rest C ND I Hi E Hr.
  change (rm (RSeq (RGrp g (ralt (map (fun n => rstr n) names))) (RSeq (RAhead true (RChr is_letter)) k)) t i c) with
    (after_name g k t i (rm (ralt (map (fun n => rstr n) names)) t i c)).
  induction names as [|n names IH]; [destruct I|].
  assert (Cr : continued names). { intros a b y z Ia Ib. apply C; right; assumption. }
  inversion ND as [|n0 names0 NI ND' E0]. subst n0 names0.
  assert (Split : rm (ralt (map (fun n => rstr n) (n :: names))) t i c = rm (rstr n) t i c ++ (match names with [] => [] | _ => rm (ralt (map (fun n => rstr n) names)) t i c end)).
  { destruct names as [|n2 names]; [cbn [map ralt]; rewrite app_nil_r; reflexivity|reflexivity]. }
  rewrite Split. rewrite after_app. clear Split.
  destruct (list_eq_dec N.eq_dec n name) as [->|Ne].
  - assert (Rest : after_name g k t i (match names with [] => [] | _ => rm (ralt (map (fun n => rstr n) names)) t i c end) = []).
    { destruct names as [|n2 names]; [reflexivity|]. apply (names_after g (n2 :: names) k t i c name rest ltac:(discriminate) C NI Hi E Hr). }
    rewrite Rest, app_nil_r. rewrite rm_rstr, E, startswith_app. unfold after_name. cbn [map flat_map fst snd]. rewrite app_nil_r.
    change (rm (RSeq (RAhead true (RChr is_letter)) k) t (i + length name) ((g, (i, i + length name)) :: c)) with
      (flat_map (fun jc => rm k t (fst jc) (snd jc)) (rm (RAhead true (RChr is_letter)) t (i + length name) ((g, (i, i + length name)) :: c))).
    assert (A : rm (RAhead true (RChr is_letter)) t (i + length name) ((g, (i, i + length name)) :: c) = [(i + length name, (g, (i, i + length name)) :: c)]).
    { cbn [rm]. unfold next_is. rewrite nth_error_skipn, (skipn_more t i name rest E). destruct rest as [|x r]; [reflexivity|]. cbn in Hr. rewrite Hr. reflexivity. }
    rewrite A. cbn [flat_map fst snd]. apply app_nil_r.
  - assert (I' : In name names) by (destruct I as [I|I]; [congruence|exact I]).
    assert (One : after_name g k t i (rm (rstr n) t i c) = []).
    { apply (names_after g [n] k t i c name rest); [discriminate| |intros [X|[]]; congruence|exact Hi|exact E|exact Hr].
      intros a b y z Ia Ib. apply C; [destruct Ia as [<-|[<-|[]]]|destruct Ib as [<-|[<-|[]]]]; auto using in_eq, in_cons. }
    rewrite One. destruct names as [|n2 names]; [destruct I'|]. apply IH; assumption.
Qed.
