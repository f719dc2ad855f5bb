(** Model of Python's [re] engine, the fragment used by latex2json.

    A backtracking matcher is modelled by the list of all its results in the
    order in which backtracking would produce them: each result is the end
    position together with the captured groups.  The first element is the match
    Python reports.  This models the runtime ([re] is trusted); patterns in
    /repo are transcribed in this syntax next to the code that uses them.

    Simplification: an iteration of a star that matches the empty string is
    dropped (CPython would allow one such iteration); the patterns transcribed
    here have star bodies that never match the empty string ([star_ok]). *)
From Coq Require Import List NArith PeanoNat Lia Bool Wf_nat.
From Verif Require Import PyStr.
Import ListNotations.

Inductive re :=
| REps
| RChr (p : ch -> bool)                (** one character of a class *)
| RSeq (a b : re)
| RAlt (a b : re)
| RStar (greedy : bool) (a : re)
| RGrp (n : nat) (a : re)              (** capturing group *)
| REnd                                  (** [$] without MULTILINE *)
| RStart                                (** [^] without MULTILINE *)
| RAhead (neg : bool) (a : re)          (** (?=a) / (?!a) *)
| RBehind (neg : bool) (p : ch -> bool) (** one-character (?<=p) / (?<!p) *)
| RBound (w : ch -> bool).              (** \b; [w] is \w *)

Definition caps := list (nat * (nat * nat)).
Fixpoint cap_get (n : nat) (c : caps) : option (nat * nat) :=
  match c with
  | [] => None
  | (k, v) :: r => if Nat.eqb k n then Some v else cap_get n r
  end.

Definition prev_is (p : ch -> bool) (text : str) (i : nat) : bool :=
  match i with
  | O => false
  | S i' => match nth_error text i' with Some x => p x | None => false end
  end.
Definition next_is (p : ch -> bool) (text : str) (i : nat) : bool :=
  match nth_error text i with Some x => p x | None => false end.

Definition at_end (text : str) (i : nat) : bool :=
  match skipn i text with
  | [] => true
  | [x] => N.eqb x c_nl
  | _ => false
  end.

Definition nilb {A} (l : list A) : bool := match l with [] => true | _ => false end.

Fixpoint star_run (step : nat -> caps -> list (nat * caps)) (greedy : bool)
    (fuel : nat) (i : nat) (c : caps) : list (nat * caps) :=
  match fuel with
  | O => []
  | S f =>
      let more := flat_map (fun jc => if Nat.ltb i (fst jc) then star_run step greedy f (fst jc) (snd jc) else [])
                    (step i c) in
      if greedy then more ++ [(i, c)] else (i, c) :: more
  end.

Fixpoint rm (r : re) (text : str) (i : nat) (c : caps) : list (nat * caps) :=
  match r with
  | REps => [(i, c)]
  | RChr p => if next_is p text i then [(S i, c)] else []
  | RSeq a b => flat_map (fun jc => rm b text (fst jc) (snd jc)) (rm a text i c)
  | RAlt a b => rm a text i c ++ rm b text i c
  | RStar g a => star_run (rm a text) g (S (length text - i)) i c
  | RGrp n a => map (fun jc => (fst jc, (n, (i, fst jc)) :: snd jc)) (rm a text i c)
  | REnd => if at_end text i then [(i, c)] else []
  | RStart => if Nat.eqb i 0 then [(i, c)] else []
  | RAhead neg a => if xorb neg (negb (nilb (rm a text i c))) then [(i, c)] else []
  | RBehind neg p => if xorb neg (prev_is p text i) then [(i, c)] else []
  | RBound w => if xorb (prev_is w text i) (next_is w text i) then [(i, c)] else []
  end.

(** match object: start, end, groups *)
Record mobj := { m_start : nat; m_end : nat; m_caps : caps }.
Definition m_span (n : nat) (m : mobj) : option (nat * nat) := cap_get n (m_caps m).
Definition m_group (text : str) (n : nat) (m : mobj) : option str :=
  option_map (fun '(i, j) => slice i j text) (cap_get n (m_caps m)).
Definition m_group0 (text : str) (m : mobj) : str := slice (m_start m) (m_end m) text.

(** [pattern.match(text, pos)] *)
Definition re_match_at (r : re) (text : str) (pos : nat) : option mobj :=
  match rm r text pos [] with
  | [] => None
  | (j, c) :: _ => Some {| m_start := pos; m_end := j; m_caps := c |}
  end.

(** [pattern.search(text, pos)]: tries pos, pos+1, ..., len(text) *)
Fixpoint re_search_go (r : re) (text : str) (k pos : nat) : option mobj :=
  match re_match_at r text pos with
  | Some m => Some m
  | None => match k with O => None | S k => re_search_go r text k (S pos) end
  end.
Definition re_search_from (r : re) (text : str) (pos : nat) : option mobj :=
  if Nat.leb pos (length text) then re_search_go r text (length text - pos) pos else None.
Definition re_search (r : re) (text : str) : option mobj := re_search_from r text 0.

(** [pattern.finditer(text)] as a list, and [pattern.sub(f, text)].
    After an empty match at [i] the scan resumes at [i + 1]. *)
Fixpoint re_finditer_go (fuel : nat) (r : re) (text : str) (pos : nat) : list mobj :=
  match fuel with
  | O => []
  | S f =>
      match re_search_from r text pos with
      | None => []
      | Some m => m :: re_finditer_go f r text (if Nat.eqb (m_end m) (m_start m) then S (m_end m) else m_end m)
      end
  end.
Definition re_finditer (r : re) (text : str) : list mobj := re_finditer_go (S (S (length text))) r text 0.

Fixpoint re_sub_go (fuel : nat) (r : re) (f : mobj -> str) (text : str) (pos : nat) : str :=
  match fuel with
  | O => []
  | S fu =>
      match re_search_from r text pos with
      | None => skipn pos text
      | Some m =>
          slice pos (m_start m) text ++ f m ++
          (if Nat.eqb (m_end m) (m_start m)
           then slice (m_end m) (S (m_end m)) text ++ re_sub_go fu r f text (S (m_end m))
           else re_sub_go fu r f text (m_end m))
      end
  end.
Definition re_sub (r : re) (f : mobj -> str) (text : str) : str := re_sub_go (S (S (length text))) r f text 0.

(** Syntax helpers *)
Definition is_ch (x : ch) : re := RChr (N.eqb x).
Fixpoint rstr (s : str) : re :=
  match s with [] => REps | x :: r => RSeq (is_ch x) (rstr r) end.
Definition rplus (a : re) : re := RSeq a (RStar true a).
Definition rstar (a : re) : re := RStar true a.
Definition rlazy (a : re) : re := RStar false a.
Definition ropt (a : re) : re := RAlt a REps.
Fixpoint rseq (l : list re) : re :=
  match l with [] => REps | [a] => a | a :: r => RSeq a (rseq r) end.
Fixpoint ralt (l : list re) : re :=
  match l with [] => RChr (fun _ => false) | [a] => a | a :: r => RAlt a (ralt r) end.
Definition in_str (s : str) (x : ch) : bool := existsb (N.eqb x) s.
Definition rcls (s : str) : re := RChr (in_str s).
Definition rncls (s : str) : re := RChr (fun x => negb (in_str s x)).
Definition rspace : re := RChr isspace.
Definition rdigit : re := RChr isdigit.
Definition rdot : re := RChr (fun x => negb (N.eqb x c_nl)).
Definition rany : re := RChr (fun _ => true).

(* ------------------------------------------------------------------ *)
(** * What a pattern matches, as a relation *)
Inductive rel : re -> str -> nat -> nat -> Prop :=
| rel_eps : forall t i, rel REps t i i
| rel_chr : forall p t i x, nth_error t i = Some x -> p x = true -> rel (RChr p) t i (S i)
| rel_seq : forall a b t i j k, rel a t i j -> rel b t j k -> rel (RSeq a b) t i k
| rel_altl : forall a b t i j, rel a t i j -> rel (RAlt a b) t i j
| rel_altr : forall a b t i j, rel b t i j -> rel (RAlt a b) t i j
| rel_star0 : forall g a t i, rel (RStar g a) t i i
| rel_star1 : forall g a t i j k, rel a t i j -> i < j -> rel (RStar g a) t j k -> rel (RStar g a) t i k
| rel_grp : forall n a t i j, rel a t i j -> rel (RGrp n a) t i j
| rel_end : forall t i, at_end t i = true -> rel REnd t i i
| rel_start : forall t, rel RStart t 0 0
| rel_ahead : forall a t i j, rel a t i j -> rel (RAhead false a) t i i
| rel_nahead : forall a t i, (forall c, rm a t i c = []) -> rel (RAhead true a) t i i
| rel_behind : forall neg p t i, xorb neg (prev_is p t i) = true -> rel (RBehind neg p) t i i
| rel_bound : forall w t i, xorb (prev_is w t i) (next_is w t i) = true -> rel (RBound w) t i i.

Lemma next_is_some : forall p t i, next_is p t i = true -> exists x, nth_error t i = Some x /\ p x = true.
Proof. intros p t i H. unfold next_is in H. destruct (nth_error t i) as [x|]; [eauto|discriminate]. Qed.

Lemma next_is_lt : forall p t i, next_is p t i = true -> i < length t.
Proof. intros p t i H. apply next_is_some in H. destruct H as (x & H & _). apply nth_error_Some. congruence. Qed.

Lemma star_run_in : forall step g fuel i c j c',
  In (j, c') (star_run step g fuel i c) ->
  (j, c') = (i, c) \/ exists j1 c1, In (j1, c1) (step i c) /\ i < j1 /\ exists f, f < fuel /\ In (j, c') (star_run step g f j1 c1).
Proof.
  intros step g [|f] i c j c' H; [cbn in H; destruct H|].
  cbn [star_run] in H.
  assert (H' : (j, c') = (i, c) \/ In (j, c') (flat_map (fun jc => if Nat.ltb i (fst jc) then star_run step g f (fst jc) (snd jc) else []) (step i c))).
  { destruct g; [apply in_app_iff in H; destruct H as [H|[H|[]]]; auto|destruct H as [H|H]; auto]. }
  destruct H' as [H'|H']; [left; exact H'|right].
  apply in_flat_map in H'. destruct H' as ([j1 c1] & H1 & H2). cbn [fst snd] in H2.
  destruct (Nat.ltb i j1) eqn:E; [|destruct H2]. apply Nat.ltb_lt in E. eauto 10.
Qed.

(** results stay inside the text *)
Lemma rm_bounds : forall r text i c j c', i <= length text -> In (j, c') (rm r text i c) -> i <= j <= length text.
Proof.
  induction r as [|p|a IHa b IHb|a IHa b IHb|g a IHa|n a IHa| | |neg a IHa|neg p|w]; intros text i c j c' Hi H; cbn [rm] in H.
  - destruct H as [H|[]]. injection H as <- _. lia.
  - destruct (next_is p text i) eqn:E; [|destruct H]. apply next_is_lt in E. destruct H as [H|[]]. injection H as <- _. lia.
  - apply in_flat_map in H. destruct H as ([k c1] & H1 & H2). cbn in H2.
    apply IHa in H1; [|exact Hi]. apply IHb in H2; lia.
  - apply in_app_iff in H. destruct H as [H|H]; eauto.
  - revert H. generalize (S (length text - i)). intros fuel. revert i c Hi j c'.
    induction fuel as [fuel IHf] using (well_founded_induction lt_wf). intros i c Hi j c' H.
    apply star_run_in in H. destruct H as [H|(j1 & c1 & H1 & Hlt & f & Hf & H2)].
    + injection H as -> _. lia.
    + apply IHa in H1; [|exact Hi]. apply (IHf f Hf) in H2; lia.
  - apply in_map_iff in H. destruct H as ([k c1] & H & H1). injection H as <- _. cbn. eauto.
  - destruct (at_end text i); [|destruct H]. destruct H as [H|[]]. injection H as <- _. lia.
  - destruct (Nat.eqb i 0) eqn:E; [|destruct H]. destruct H as [H|[]]. injection H as <- _. lia.
  - destruct (xorb neg _); [|destruct H]. destruct H as [H|[]]. injection H as <- _. lia.
  - destruct (xorb neg _); [|destruct H]. destruct H as [H|[]]. injection H as <- _. lia.
  - destruct (xorb _ _); [|destruct H]. destruct H as [H|[]]. injection H as <- _. lia.
Qed.

(** the end positions do not depend on the captures so far *)
Lemma rm_fst_caps : forall r text i c c', map fst (rm r text i c) = map fst (rm r text i c').
Proof.
  assert (Hfm : forall (f g : nat * caps -> list (nat * caps)) l1 l2,
     (forall j c c', map fst (f (j, c)) = map fst (g (j, c'))) ->
     map fst l1 = map fst l2 -> map fst (flat_map f l1) = map fst (flat_map g l2)).
  { intros f g l1. induction l1 as [|[j c] l1 IH]; intros [|[j2 c2] l2] Hfg H; cbn in H; try discriminate; auto.
    injection H as -> H. cbn [flat_map]. rewrite !map_app, (IH l2 Hfg H), (Hfg j2 c c2). reflexivity. }
  induction r as [|p|a IHa b IHb|a IHa b IHb|g a IHa|n a IHa| | |neg a IHa|neg p|w]; intros text i c c'; cbn [rm].
  - reflexivity.
  - destruct (next_is p text i); reflexivity.
  - apply Hfm; [|apply IHa]. intros j c1 c2. cbn. apply IHb.
  - rewrite !map_app, (IHa text i c c'), (IHb text i c c'). reflexivity.
  - generalize (S (length text - i)). intros fuel. revert i c c'.
    induction fuel as [|f IHf]; intros i c c'; [reflexivity|].
    assert (E : map fst (flat_map (fun jc => if Nat.ltb i (fst jc) then star_run (rm a text) g f (fst jc) (snd jc) else []) (rm a text i c)) =
       map fst (flat_map (fun jc => if Nat.ltb i (fst jc) then star_run (rm a text) g f (fst jc) (snd jc) else []) (rm a text i c'))).
    { apply Hfm; [|apply IHa]. intros j c1 c2. cbn [fst snd]. destruct (Nat.ltb i j); [apply IHf|reflexivity]. }
    cbn [star_run]. destruct g; [rewrite !map_app, E|cbn [map]; rewrite E]; reflexivity.
  - rewrite !map_map. cbn. apply IHa.
  - destruct (at_end text i); reflexivity.
  - destruct (Nat.eqb i 0); reflexivity.
  - assert (E : nilb (rm a text i c) = nilb (rm a text i c')).
    { specialize (IHa text i c c'). destruct (rm a text i c), (rm a text i c'); try discriminate; reflexivity. }
    rewrite E. destruct (xorb _ _); reflexivity.
  - destruct (xorb _ _); reflexivity.
  - destruct (xorb _ _); reflexivity.
Qed.

Lemma rm_nil_caps : forall r text i c c', rm r text i c = [] -> rm r text i c' = [].
Proof.
  intros r text i c c' H. pose proof (rm_fst_caps r text i c' c) as E. rewrite H in E. destruct (rm r text i c'); [reflexivity|discriminate].
Qed.

Lemma rm_sound : forall r text i c j c', i <= length text -> In (j, c') (rm r text i c) -> rel r text i j.
Proof.
  induction r as [|p|a IHa b IHb|a IHa b IHb|g a IHa|n a IHa| | |neg a IHa|neg p|w]; intros text i c j c' Hi H; cbn [rm] in H.
  - destruct H as [H|[]]. injection H as <- _. constructor.
  - destruct (next_is p text i) eqn:E; [|destruct H]. apply next_is_some in E. destruct E as (x & E1 & E2).
    destruct H as [H|[]]. injection H as <- _. econstructor; eauto.
  - apply in_flat_map in H. destruct H as ([k c1] & H1 & H2). cbn in H2.
    pose proof (rm_bounds _ _ _ _ _ _ Hi H1). econstructor; [eapply IHa; eauto|eapply IHb; [|eauto]; lia].
  - apply in_app_iff in H. destruct H as [H|H]; [apply rel_altl|apply rel_altr]; eauto.
  - revert H. generalize (S (length text - i)). intros fuel. revert i c Hi j c'.
    induction fuel as [fuel IHf] using (well_founded_induction lt_wf). intros i c Hi j c' H.
    apply star_run_in in H. destruct H as [H|(j1 & c1 & H1 & Hlt & f & Hf & H2)].
    + injection H as -> _. constructor.
    + pose proof (rm_bounds _ _ _ _ _ _ Hi H1). eapply rel_star1; [eapply IHa; eauto|exact Hlt|].
      eapply (IHf f Hf); [|exact H2]. lia.
  - apply in_map_iff in H. destruct H as ([k c1] & H & H1). injection H as <- _. constructor. eauto.
  - destruct (at_end text i) eqn:E; [|destruct H]. destruct H as [H|[]]. injection H as <- _. constructor; auto.
  - destruct (Nat.eqb i 0) eqn:E; [|destruct H]. apply Nat.eqb_eq in E. subst. destruct H as [H|[]]. injection H as <- _. constructor.
  - destruct (xorb neg _) eqn:E; [|destruct H]. destruct H as [H|[]]. injection H as <- _.
    destruct (rm a text i c) as [|[j c1] l] eqn:El; cbn in E.
    + destruct neg; [|discriminate]. apply rel_nahead. intros c2. eapply rm_nil_caps; eauto.
    + destruct neg; [discriminate|]. eapply rel_ahead, IHa; [exact Hi|]. rewrite El. left. reflexivity.
  - destruct (xorb neg _) eqn:E; [|destruct H]. destruct H as [H|[]]. injection H as <- _. constructor. auto.
  - destruct (xorb _ _) eqn:E; [|destruct H]. destruct H as [H|[]]. injection H as <- _. constructor. auto.
Qed.

Lemma rel_bounds : forall r t i j, rel r t i j -> i <= length t -> i <= j <= length t.
Proof.
  induction 1; intros Hi; auto; try (specialize (IHrel Hi)); try lia.
  - assert (i < length t) by (apply nth_error_Some; congruence). lia.
Qed.

Lemma in_fst : forall (l : list (nat * caps)) j, (exists c, In (j, c) l) <-> In j (map fst l).
Proof.
  intros l j. rewrite in_map_iff. split.
  - intros (c & H). exists (j, c). auto.
  - intros ([j' c] & H & H1). cbn in H. subst. eauto.
Qed.

Lemma rm_complete : forall r text i j, rel r text i j -> i <= length text -> forall c, exists c', In (j, c') (rm r text i c).
Proof.
  assert (Hstar : forall g a t i j, rel (RStar g a) t i j -> i <= length t ->
     (forall i' j', rel a t i' j' -> i' <= length t -> forall c, exists c', In (j', c') (rm a t i' c)) ->
     forall fuel c, length t - i < fuel -> exists c', In (j, c') (star_run (rm a t) g fuel i c)).
  { intros g a t i j H. remember (RStar g a) as r eqn:Er. revert g a Er.
    induction H; intros gg aa Er Hi Hstep fuel cc Hf; try discriminate.
    - injection Er as -> ->. destruct fuel as [|f]; [lia|]. exists cc. cbn. destruct gg; [apply in_app_iff; right|]; left; reflexivity.
    - injection Er as -> ->. clear IHrel1. destruct fuel as [|f]; [lia|].
      assert (Hj := rel_bounds _ _ _ _ H Hi).
      destruct (Hstep i j H Hi cc) as (c1 & H1c).
      destruct (IHrel2 gg aa eq_refl) with (fuel := f) (c := c1) as (c2 & H2c); try lia; auto.
      exists c2. assert (Hin : In (k, c2) (flat_map (fun jc => if Nat.ltb i (fst jc) then star_run (rm aa t) gg f (fst jc) (snd jc) else []) (rm aa t i cc))).
      { apply in_flat_map. exists (j, c1). split; [exact H1c|]. cbn [fst snd]. apply Nat.ltb_lt in H0. rewrite H0. exact H2c. }
      cbn [star_run]. destruct gg; [apply in_app_iff; left|right]; exact Hin. }
  induction r as [|p|a IHa b IHb|a IHa b IHb|g a IHa|n a IHa| | |neg a IHa|neg p|w]; intros text i j H Hi c.
  - inversion H; subst. exists c. left. reflexivity.
  - inversion H; subst. exists c. cbn. unfold next_is.
    match goal with K1 : nth_error _ _ = Some _, K2 : p _ = true |- _ => rewrite K1, K2 end. left. reflexivity.
  - inversion H as [| |a' b' t' i' k j' K1 K2| | | | | | | | | | |]; subst.
    pose proof (rel_bounds _ _ _ _ K1 Hi) as Hk. destruct (IHa _ _ _ K1 Hi c) as (c1 & H1).
    destruct (IHb text k j K2 ltac:(lia) c1) as (c2 & H2). exists c2. cbn. apply in_flat_map. exists (k, c1). auto.
  - inversion H; subst; cbn [rm].
    + match goal with K : rel a _ _ _ |- _ => destruct (IHa _ _ _ K Hi c) as (c1 & H1) end. exists c1. apply in_app_iff. auto.
    + match goal with K : rel b _ _ _ |- _ => destruct (IHb _ _ _ K Hi c) as (c1 & H1) end. exists c1. apply in_app_iff. auto.
  - cbn [rm]. eapply Hstar; eauto.
  - inversion H; subst. match goal with K : rel a _ _ _ |- _ => destruct (IHa _ _ _ K Hi c) as (c1 & H1) end.
    eexists. cbn. apply in_map_iff. exists (j, c1). split; [reflexivity|exact H1].
  - inversion H; subst. exists c. cbn. match goal with K : at_end _ _ = _ |- _ => rewrite K end. left. reflexivity.
  - inversion H; subst. exists c. left. reflexivity.
  - inversion H; subst.
    + match goal with K : rel a _ _ _ |- _ => destruct (IHa _ _ _ K Hi c) as (c1 & H1) end.
      exists c. cbn. destruct (rm a text j c); [destruct H1|]. left. reflexivity.
    + exists c. cbn. match goal with K : forall c, rm a _ _ c = [] |- _ => rewrite K end. left. reflexivity.
  - inversion H; subst. exists c. cbn. match goal with K : xorb _ _ = true |- _ => rewrite K end. left. reflexivity.
  - inversion H; subst. exists c. cbn. match goal with K : xorb _ _ = true |- _ => rewrite K end. left. reflexivity.
Qed.

Lemma rm_rel : forall r text i j c, i <= length text ->
  (In j (map fst (rm r text i c)) <-> rel r text i j).
Proof.
  intros r text i j c Hi. rewrite <- in_fst. split.
  - intros (c' & H). eapply rm_sound; eauto.
  - intros H. eapply rm_complete; eauto.
Qed.

(** [search] finds a match exactly when there is one, at the leftmost start. *)
Lemma re_match_at_some : forall r text i m, i <= length text -> re_match_at r text i = Some m ->
  m_start m = i /\ rel r text i (m_end m) /\ i <= m_end m <= length text.
Proof.
  intros r text i m Hi H. unfold re_match_at in H. destruct (rm r text i []) as [|[j c] l] eqn:E; [discriminate|].
  injection H as <-. cbn. assert (Hin : In (j, c) (rm r text i [])) by (rewrite E; left; reflexivity).
  split; [reflexivity|]. split; [eapply rm_sound; eauto|eapply rm_bounds; eauto].
Qed.

Lemma re_match_at_none : forall r text i, i <= length text ->
  (re_match_at r text i = None <-> forall j, ~ rel r text i j).
Proof.
  intros r text i Hi. unfold re_match_at. destruct (rm r text i []) as [|[j c] l] eqn:E.
  - split; [|reflexivity]. intros _ j H. destruct (rm_complete _ _ _ _ H Hi []) as (c & Hc). rewrite E in Hc. destruct Hc.
  - split; [discriminate|]. intros H. exfalso. apply (H j). eapply (rm_sound r text i [] j c Hi). rewrite E. left. reflexivity.
Qed.

Lemma re_search_go_some : forall r text k pos m, pos + k <= length text ->
  re_search_go r text k pos = Some m ->
  pos <= m_start m <= pos + k /\ re_match_at r text (m_start m) = Some m /\
  (forall i, pos <= i < m_start m -> forall j, ~ rel r text i j).
Proof.
  induction k as [|k IH]; intros pos m Hk H; cbn [re_search_go] in H;
   destruct (re_match_at r text pos) as [m'|] eqn:E.
  - injection H as ->. pose proof (re_match_at_some r text pos m ltac:(lia) E) as (Hs & _).
    rewrite Hs. split; [lia|]. split; [exact E|]. intros; lia.
  - discriminate.
  - injection H as ->. pose proof (re_match_at_some r text pos m ltac:(lia) E) as (Hs & _).
    rewrite Hs. split; [lia|]. split; [exact E|]. intros; lia.
  - apply IH in H; [|lia]. destruct H as (H1 & H2 & H3). split; [lia|]. split; [exact H2|].
    intros i Hi. destruct (Nat.eq_dec i pos) as [->|Hne]; [|apply H3; lia].
    apply re_match_at_none; [lia|exact E].
Qed.

Lemma re_search_go_none : forall r text k pos, pos + k <= length text ->
  re_search_go r text k pos = None -> forall i, pos <= i <= pos + k -> forall j, ~ rel r text i j.
Proof.
  induction k as [|k IH]; intros pos Hk H i Hi; cbn [re_search_go] in H;
   destruct (re_match_at r text pos) as [m'|] eqn:E; try discriminate.
  - replace i with pos by lia. apply re_match_at_none; [lia|exact E].
  - destruct (Nat.eq_dec i pos) as [->|Hne]; [apply re_match_at_none; [lia|exact E]|].
    apply (IH (S pos)); auto; lia.
Qed.

Lemma re_search_some : forall r text pos m, re_search_from r text pos = Some m ->
  pos <= m_start m /\ m_start m <= m_end m <= length text /\
  rel r text (m_start m) (m_end m) /\
  re_match_at r text (m_start m) = Some m /\
  (forall i j, pos <= i < m_start m -> ~ rel r text i j).
Proof.
  intros r text pos m H. unfold re_search_from in H. destruct (Nat.leb pos (length text)) eqn:E; [|discriminate].
  apply Nat.leb_le in E. apply re_search_go_some in H; [|lia]. destruct H as (H1 & H2 & H3).
  pose proof (re_match_at_some r text (m_start m) m ltac:(lia) H2) as (_ & H4 & H5).
  split; [lia|]. split; [lia|]. split; [exact H4|]. split; [exact H2|]. intros i j Hi. apply H3. lia.
Qed.

Lemma re_search_none : forall r text pos, re_search_from r text pos = None <->
  (forall i j, pos <= i <= length text -> ~ rel r text i j).
Proof.
  intros r text pos. split.
  - intros H i j Hi. unfold re_search_from in H. destruct (Nat.leb pos (length text)) eqn:E.
    + apply Nat.leb_le in E. eapply (re_search_go_none r text (length text - pos) pos); [lia|exact H|lia].
    + apply Nat.leb_gt in E. lia.
  - intros H. destruct (re_search_from r text pos) as [m|] eqn:E; [|reflexivity].
    apply re_search_some in E. destruct E as (H1 & H2 & H3 & _). exfalso. eapply H; [|exact H3]. lia.
Qed.

(** minimal match length *)
Fixpoint minlen (r : re) : nat :=
  match r with
  | RChr _ => 1
  | RSeq a b => minlen a + minlen b
  | RAlt a b => Nat.min (minlen a) (minlen b)
  | RGrp _ a => minlen a
  | _ => 0
  end.
Lemma minlen_ok : forall r t i j, rel r t i j -> i + minlen r <= j.
Proof.
  induction 1; cbn [minlen]; try lia.
Qed.

Fixpoint star_ok (r : re) : bool :=
  match r with
  | RSeq a b | RAlt a b => star_ok a && star_ok b
  | RStar _ a => Nat.ltb 0 (minlen a) && star_ok a
  | RGrp _ a | RAhead _ a => star_ok a
  | _ => true
  end.
