(** Proofs for StyModel. *)
From Coq Require Import List NArith ZArith PeanoNat Lia Bool String.
From Verif Require Import PyStr Json ExtractModel StyModel.
Import ListNotations.
Notation length := List.length.
Notation concat := List.concat.
Open Scope list_scope.

Section Sty.
Variables S tok : Type.
Variable text : str -> option str -> S -> option (prog S tok).
Variable absolute : str -> str.
Variable mark : tok -> tok.
Notation pf := (parse_file S tok text absolute mark).

Definition runp (fuel : nat) : prog S tok -> list str -> list str -> option (sty S * option (list tok)) :=
  fix run (pr : prog S tok) (ps tr : list str) :=
    match pr with
    | PRet d s ts => Some ({| parsed := ps; cdir := d; rest := s; started := tr |}, Some ts)
    | PRaise d s => Some ({| parsed := ps; cdir := d; rest := s; started := tr |}, None)
    | PCall q d s k =>
        match pf fuel q {| parsed := ps; cdir := d; rest := s; started := tr |} with
        | None => None
        | Some (st1, ts) => run (k (cdir st1) (rest st1) ts) (parsed st1) (started st1)
        end
    end.
Lemma pf_step : forall fuel path st, pf (Datatypes.S fuel) path st =
  let p := absolute path in
  if existsb (str_eqb p) (parsed st) then Some (st, [])
  else match text p (Some (dirname p)) (rest st) with
       | None => Some (st, [])
       | Some pr =>
           match runp fuel pr (p :: parsed st) (p :: started st) with
           | None => None
           | Some (st1, Some ts) => Some ({| parsed := parsed st1; cdir := cdir st; rest := rest st1; started := started st1 |}, map mark ts)
           | Some (st1, None) => Some (st1, [])
           end
       end.
Proof. reflexivity. Qed.

Lemma mem_spec : forall p l, existsb (str_eqb p) l = true <-> In p l.
Proof.
  intros p l. rewrite existsb_exists. split; [intros (x & H & E); apply str_eqb_spec in E; subst; exact H|intros H; exists p; split; [exact H|apply str_eqb_refl]].
Qed.

(** What a call does to the bookkeeping: some new files, each once. *)
Definition grows (ps tr : list str) (st1 : sty S) : Prop :=
  exists new, parsed st1 = new ++ ps /\ started st1 = new ++ tr /\ NoDup new /\ (forall p, In p new -> ~ In p ps) /\
    forall p, In p new -> exists s, text p (Some (dirname p)) s <> None.
Lemma grows_refl : forall ps tr d s, grows ps tr {| parsed := ps; cdir := d; rest := s; started := tr |}.
Proof. intros. exists []. repeat split; try constructor; intros p []. Qed.
Lemma grows_trans : forall ps tr st1 st2, grows ps tr st1 -> grows (parsed st1) (started st1) st2 -> grows ps tr st2.
Proof.
  intros ps tr st1 st2 (n1 & A1 & B1 & C1 & D1 & E1) (n2 & A2 & B2 & C2 & D2 & E2). exists (n2 ++ n1).
  rewrite A2, B2, A1, B1, <- !app_assoc. split; [reflexivity|]. split; [reflexivity|]. split; [|split].
  - rewrite A1 in D2. clear - C1 C2 D2. induction n2 as [|x n2 IH]; [exact C1|].
    inversion C2 as [|x' n' Hx Hn]; subst. cbn. constructor.
    + intros H. apply in_app_or in H as [H|H]; [exact (Hx H)|]. apply (D2 x (or_introl eq_refl)). apply in_or_app. now left.
    + apply IH; [exact Hn|]. intros p Hp. apply D2. now right.
  - intros p H X. apply in_app_or in H as [H|H]; [|exact (D1 p H X)]. apply (D2 p H). rewrite A1. apply in_or_app. now right.
  - intros p H. apply in_app_or in H as [H|H]; auto.
Qed.
Lemma runp_grows : forall fuel, (forall path st st1 ts, pf fuel path st = Some (st1, ts) -> grows (parsed st) (started st) st1) ->
  forall pr ps tr st1 o, runp fuel pr ps tr = Some (st1, o) -> grows ps tr st1.
Proof.
  intros fuel IH. induction pr as [d s ts|d s|q d s k IHk]; intros ps tr st1 o H; cbn [runp] in H.
  - injection H as <- _. apply grows_refl.
  - injection H as <- _. apply grows_refl.
  - destruct (pf fuel q _) as [[st2 ts]|] eqn:E; [|discriminate]. apply IH in E. cbn [parsed started] in E. apply IHk in H. eapply grows_trans; eassumption.
Qed.
Lemma pf_grows : forall fuel path st st1 ts, pf fuel path st = Some (st1, ts) -> grows (parsed st) (started st) st1.
Proof.
  induction fuel as [|fuel IH]; intros path st st1 ts H; [discriminate|]. rewrite pf_step in H. cbv zeta in H.
  destruct (existsb (str_eqb (absolute path)) (parsed st)) eqn:M; [injection H as <- _; destruct st; apply grows_refl|].
  destruct (text (absolute path) (Some (dirname (absolute path))) (rest st)) as [pr|] eqn:T; [|injection H as <- _; destruct st; apply grows_refl].
  destruct (runp fuel pr _ _) as [[st2 o]|] eqn:R; [|discriminate]. apply (runp_grows fuel IH) in R.
  assert (G : grows (parsed st) (started st) st2).
  { destruct R as (new & A & B & C & D & E). exists (new ++ [absolute path]). rewrite A, B, <- !app_assoc. split; [reflexivity|]. split; [reflexivity|]. split; [|split].
    - apply NoDup_rev in C. apply (NoDup_cons (absolute path)) in C.
      + apply NoDup_rev in C. cbn [rev] in C. now rewrite rev_involutive in C.
      + intros X. apply in_rev in X. apply (D _ X). now left.
    - intros p X Y. apply in_app_or in X as [X|[<-|[]]]; [apply (D p X); now right|]. apply mem_spec in Y. congruence.
    - intros p X. apply in_app_or in X as [X|[<-|[]]]; [apply E; exact X|]. exists (rest st). congruence. }
  destruct o as [ts2|]; injection H as <- _; [|exact G]. destruct G as (new & G). exists new. exact G.
Qed.

(** Termination: more fuel than unparsed readable files. *)
Definition readable (files : list str) : Prop := forall p s, text p (Some (dirname p)) s <> None -> In p files.
Definition left_over (files ps : list str) : nat := length (filter (fun p => negb (existsb (str_eqb p) ps)) files).
Lemma filter_le : forall (files ps qs : list str), (forall p, In p ps -> In p qs) -> left_over files qs <= left_over files ps.
Proof.
  intros files ps qs H. unfold left_over. induction files as [|f files IH]; [apply le_n|]. cbn [filter].
  destruct (existsb (str_eqb f) ps) eqn:E1; destruct (existsb (str_eqb f) qs) eqn:E2; cbn [negb length]; try lia.
  apply mem_spec in E1. apply H in E1. apply mem_spec in E1. congruence.
Qed.
Lemma filter_lt : forall (files ps : list str) p, In p files -> ~ In p ps -> left_over files (p :: ps) < left_over files ps.
Proof.
  intros files ps p Hp Np. unfold left_over. induction files as [|f files IH]; [destruct Hp|]. cbn [filter].
  pose proof (filter_le files ps (p :: ps) (fun q H => or_intror H)) as LE. unfold left_over in LE.
  destruct Hp as [->|Hp].
  - replace (existsb (str_eqb p) (p :: ps)) with true by (symmetry; apply mem_spec; now left).
    destruct (existsb (str_eqb p) ps) eqn:E; [apply mem_spec in E; contradiction|]. cbn [negb length]. lia.
  - specialize (IH Hp). destruct (existsb (str_eqb f) (p :: ps)) eqn:E1; destruct (existsb (str_eqb f) ps) eqn:E2; cbn [negb length]; try lia.
    apply mem_spec in E2. assert (In f (p :: ps)) by now right. apply mem_spec in H. congruence.
Qed.
Lemma pf_ends : forall files, readable files -> forall fuel path st, left_over files (parsed st) < fuel -> exists st1 ts, pf fuel path st = Some (st1, ts).
Proof.
  intros files R. induction fuel as [|fuel IH]; intros path st L; [lia|]. rewrite pf_step. cbv zeta.
  destruct (existsb (str_eqb (absolute path)) (parsed st)) eqn:M; [eauto|].
  destruct (text (absolute path) (Some (dirname (absolute path))) (rest st)) as [pr|] eqn:T; [|eauto].
  assert (Lt : left_over files (absolute path :: parsed st) < left_over files (parsed st)).
  { apply filter_lt; [apply (R _ (rest st)); congruence|]. intros X. apply mem_spec in X. congruence. }
  assert (Q : forall pr ps tr, left_over files ps < fuel -> exists st1 o, runp fuel pr ps tr = Some (st1, o)).
  { clear - IH. induction pr as [d s ts|d s|q d s k IHk]; intros ps tr L; cbn [runp]; [eauto|eauto|].
    destruct (IH q {| parsed := ps; cdir := d; rest := s; started := tr |} L) as (st2 & ts & E). rewrite E. apply IHk.
    apply pf_grows in E as (new & A & _). cbn [parsed] in A. rewrite A. eapply Nat.le_lt_trans; [apply (filter_le files ps)|exact L]. intros p Hp. apply in_or_app. now right. }
  destruct (Q pr (absolute path :: parsed st) (absolute path :: started st)) as (st2 & o & ->); [lia|]. destruct o; eauto.
Qed.
Lemma left_le : forall files ps, left_over files ps <= length files.
Proof. intros files ps. unfold left_over. induction files as [|f files IH]; [apply le_n|]. cbn [filter]. destruct (negb _); cbn [length]; lia. Qed.

Lemma c35 : forall files, readable files -> forall path st, exists st1 ts,
  pf (Datatypes.S (length files)) path st = Some (st1, ts) /\
  exists new, started st1 = new ++ started st /\ parsed st1 = new ++ parsed st /\ NoDup new /\
    (forall p, In p new -> ~ In p (parsed st) /\ In p files).
Proof.
  intros files R path st. destruct (pf_ends files R (Datatypes.S (length files)) path st) as (st1 & ts & E); [pose proof (left_le files (parsed st)); lia|].
  exists st1, ts. split; [exact E|]. apply pf_grows in E as (new & A & B & C & D & F). exists new. split; [exact B|]. split; [exact A|]. split; [exact C|].
  intros p Hp. split; [apply D; exact Hp|]. destruct (F p Hp) as (s & Hs). apply (R p s Hs).
Qed.
(** more fuel changes nothing *)
Lemma pf_more : forall fuel path st r, pf fuel path st = Some r -> forall fuel', fuel <= fuel' -> pf fuel' path st = Some r.
Proof.
  induction fuel as [|fuel IH]; intros path st r H fuel' L; [discriminate|]. destruct fuel' as [|fuel']; [lia|].
  rewrite pf_step in *. cbv zeta in *. destruct (existsb _ _); [exact H|]. destruct (text _ _ _) as [pr|]; [|exact H].
  assert (Q : forall pr ps tr x, runp fuel pr ps tr = Some x -> runp fuel' pr ps tr = Some x).
  { clear - IH L. induction pr as [d s ts|d s|q d s k IHk]; intros ps tr x H; cbn [runp] in *; [exact H|exact H|].
    destruct (pf fuel q _) as [[st2 ts]|] eqn:E; [|discriminate]. rewrite (IH _ _ _ E fuel') by lia. apply IHk. exact H. }
  destruct (runp fuel pr _ _) as [x|] eqn:E; [|discriminate]. rewrite (Q _ _ _ _ E). exact H.
Qed.
(** a second call on the same path does nothing *)
Lemma pf_twice : forall fuel path st st1 ts, pf fuel path st = Some (st1, ts) -> text (absolute path) (Some (dirname (absolute path))) (rest st) <> None ->
  pf 1 path st1 = Some (st1, []).
Proof.
  intros fuel path st st1 ts H T. rewrite pf_step. cbv zeta. replace (existsb (str_eqb (absolute path)) (parsed st1)) with true; [reflexivity|].
  symmetry. apply mem_spec. destruct fuel as [|fuel]; [discriminate|]. rewrite pf_step in H. cbv zeta in H.
  destruct (existsb (str_eqb (absolute path)) (parsed st)) eqn:M; [injection H as <- _; apply mem_spec; exact M|].
  destruct (text _ _ _) as [pr|]; [|congruence]. destruct (runp fuel pr _ _) as [[st2 o]|] eqn:R; [|discriminate].
  apply (runp_grows fuel (pf_grows fuel)) in R as (new & A & _).
  assert (I : In (absolute path) (parsed st2)) by (rewrite A; apply in_or_app; right; now left).
  destruct o; injection H as <- _; exact I.
Qed.
(** the current directory after a call that did not fail *)
Lemma pf_dir : forall fuel path st st1 ts, pf fuel path st = Some (st1, ts) ->
  cdir st1 = cdir st \/ exists pr, text (absolute path) (Some (dirname (absolute path))) (rest st) = Some pr /\ exists st2, runp (pred fuel) pr (absolute path :: parsed st) (absolute path :: started st) = Some (st2, None) /\ st1 = st2.
Proof.
  intros fuel path st st1 ts H. destruct fuel as [|fuel]; [discriminate|]. rewrite pf_step in H. cbv zeta in H. cbn [pred].
  destruct (existsb _ _); [injection H as <- _; left; reflexivity|]. destruct (text _ _ _) as [pr|]; [|injection H as <- _; left; reflexivity].
  destruct (runp fuel pr _ _) as [[st2 [o|]]|] eqn:R; [|right; exists pr; split; [reflexivity|exists st2; split; [exact R|congruence]]|discriminate].
  injection H as <- _. left. reflexivity.
Qed.
End Sty.

(** ** A cyclic package graph: a.sty loads b.sty, c.sty; b.sty loads a.sty; c.sty raises after loading b.sty *)
Definition name_in (d : option str) (n : string) : str := match d with Some d => d ++ [c_slash] ++ lit n | None => lit n end.
Definition cyc (p : str) (d : option str) (s : nat) : option (prog nat str) :=
  if str_eqb p (lit "/t/a.sty") then
    Some (PCall (name_in d "b.sty") d s (fun d1 s1 t1 => PCall (name_in d1 "c.sty") d1 s1 (fun d2 s2 t2 => PRet d2 (S s2) (lit "A" :: t1 ++ t2))))
  else if str_eqb p (lit "/t/b.sty") then
    Some (PCall (name_in d "a.sty") d s (fun d1 s1 t1 => PRet d1 (S s1) (lit "B" :: t1)))
  else if str_eqb p (lit "/t/c.sty") then
    Some (PCall (name_in d "b.sty") d s (fun d1 s1 t1 => PRaise d1 (S s1)))
  else None.
Definition cyc_files : list str := [lit "/t/a.sty"; lit "/t/b.sty"; lit "/t/c.sty"].
Lemma cyc_readable : readable nat str cyc cyc_files.
Proof.
  intros p s H. unfold cyc in H. unfold cyc_files.
  destruct (str_eqb p (lit "/t/a.sty")) eqn:E1; [apply str_eqb_spec in E1; subst; now left|].
  destruct (str_eqb p (lit "/t/b.sty")) eqn:E2; [apply str_eqb_spec in E2; subst; right; now left|].
  destruct (str_eqb p (lit "/t/c.sty")) eqn:E3; [apply str_eqb_spec in E3; subst; right; right; now left|]. congruence.
Qed.
Definition start : sty nat := {| parsed := []; cdir := Some (lit "/home"); rest := 0; started := [] |}.
Lemma cyc_run : parse_file nat str cyc (fun p => p) (fun t => t) 4 (lit "/t/a.sty") start =
  Some ({| parsed := [lit "/t/c.sty"; lit "/t/b.sty"; lit "/t/a.sty"]; cdir := Some (lit "/home"); rest := 3; started := [lit "/t/c.sty"; lit "/t/b.sty"; lit "/t/a.sty"] |}, [lit "A"; lit "B"]).
Proof. vm_compute. reflexivity. Qed.
(** a package in a sub-directory that raises: what its user then asks for is looked up in the wrong directory *)
Definition sub (p : str) (d : option str) (s : nat) : option (prog nat str) :=
  if str_eqb p (lit "/t/main.sty") then
    Some (PCall (name_in d "sub/bad.sty") d s (fun d1 s1 t1 => PCall (name_in d1 "good.sty") d1 s1 (fun d2 s2 t2 => PRet d2 s2 (t1 ++ t2))))
  else if str_eqb p (lit "/t/sub/bad.sty") then Some (PRaise d s)
  else if str_eqb p (lit "/t/good.sty") then Some (PRet d s [lit "G"])
  else None.
Lemma c53_refuted : exists (text : str -> option str -> nat -> option (prog nat str)) fuel path st st1 ts,
  parse_file nat str text (fun p => p) (fun t => t) fuel path st = Some (st1, ts) /\ cdir st1 <> cdir st.
Proof. exists sub, 2, (lit "/t/sub/bad.sty"), start. do 2 eexists. split; [vm_compute; reflexivity|discriminate]. Qed.
Lemma c53_lost : exists st1, parse_file nat str sub (fun p => p) (fun t => t) 3 (lit "/t/main.sty") start = Some (st1, []) /\
  parse_file nat str sub (fun p => p) (fun t => t) 3 (lit "/t/good.sty") start <> Some (start, []).
Proof. eexists. split; [vm_compute; reflexivity|]. vm_compute. discriminate. Qed.
