From Coq Require Import List NArith ZArith PeanoNat Lia Bool String.
From Verif Require Import PyStr Json BuilderModel BuilderSpec BuilderProofs.
Import ListNotations.
Notation length := List.length.
Notation concat := List.concat.
Open Scope list_scope.
#[global] Arguments chr : simpl never.
#[global] Arguments str_of_nat : simpl never.

Ltac lits := repeat match goal with
  | |- context [str_eqb (lit ?a) (lit ?b)] =>
      let r := eval vm_compute in (str_eqb (lit a) (lit b)) in change (str_eqb (lit a) (lit b)) with r
  end; cbv iota.

(* ------------------------------------------------------------------ *)
(** * Counters *)
Lemma count_snoc : forall p l e, count p (l ++ [e]) = count p l + (if p e then 1 else 0).
Proof. intros p l e. unfold count. rewrite filter_app, app_length. cbn. destruct (p e); reflexivity. Qed.
Lemma existsb_snoc : forall (p : event -> bool) l e, existsb p (l ++ [e]) = existsb p l || p e.
Proof. intros. rewrite existsb_app. cbn. rewrite orb_false_r. reflexivity. Qed.
Lemma since_snoc : forall p l e, since p (l ++ [e]) = if p e then [] else since p l ++ [e].
Proof.
  induction l as [|x l IH]; intros e; cbn; [destruct (p e); reflexivity|].
  rewrite existsb_snoc, IH. destruct (p e) eqn:Ee; [rewrite orb_true_r; reflexivity|]. rewrite orb_false_r.
  destruct (existsb p l); [reflexivity|]. destruct (p x); reflexivity.
Qed.
Lemma section_count_snoc : forall z l e, section_count z (l ++ [e]) =
  if restarts z e then 0 else section_count z l + (if at_level z e then 1 else 0).
Proof.
  intros z l e. unfold section_count. rewrite since_snoc. destruct (restarts z e); [reflexivity|]. apply count_snoc.
Qed.

Record st_ok (before : list event) (st : counters) : Prop := {
  ok_sec : section_numbers st = [(1%Z, section_count 1 before); (2%Z, section_count 2 before); (3%Z, section_count 3 before)];
  ok_math : math_env_number st = count (numbered_as "math_env") (since level_one_section before);
  ok_eq : equation_number st = count (numbered_as "equation") before;
  ok_tab : table_env_number st = count (numbered_as "table") before;
  ok_fig : figure_env_number st = count (numbered_as "figure") before;
  ok_alg : algorithm_number st = count (numbered_as "algorithm") before }.

Lemma st_ok_cleared : st_ok [] cleared.
Proof. constructor; reflexivity. Qed.

Definition ev (app : bool) (dep : nat) (d : dict) : event := {| e_app := app; e_depth := dep; e_head := VDict (head d) |}.

Lemma get_head : forall k d, k <> k_content -> get k (head d) = get k d.
Proof. intros k d H. unfold head. destruct (get k_content d); try reflexivity. apply get_remove_other. exact H. Qed.
Lemma lookup_head : forall k d, k <> k_content -> lookup k (head d) = lookup k d.
Proof. intros k d H. unfold head. destruct (get k_content d); try reflexivity. apply lookup_remove_other. exact H. Qed.
Lemma get_default_head : forall k x d, k <> k_content -> get_default k x (head d) = get_default k x d.
Proof. intros k x d H. unfold get_default. rewrite lookup_head by exact H. reflexivity. Qed.

Section Ev.
Variables (app : bool) (dep : nat) (d : dict) (s : str).
Hypothesis Ht : lookup k_type d = Some (VStr s).
Let e := ev app dep d.

Lemma get_type : get k_type d = VStr s.
Proof. unfold get. rewrite Ht. reflexivity. Qed.
Lemma has_type_ev : forall t, has_type t e = str_eqb s (lit t).
Proof. intros t. unfold has_type, e, ev. cbn [e_head]. rewrite get_head by discriminate. rewrite get_type. reflexivity. Qed.
Lemma numbered_as_ev : forall t, numbered_as t e = str_eqb s (lit t) && truthy (get k_numbered d).
Proof. intros t. unfold numbered_as. rewrite has_type_ev. unfold e, ev. cbn [e_head]. rewrite get_head by discriminate. reflexivity. Qed.
Lemma numbered_section_ev : numbered_section e =
  if str_eqb s (lit "section") && truthy (get_default k_numbered (VBool true) d)
  then match get_default k_level (VInt 1) d with VInt z => Some z | _ => None end else None.
Proof.
  unfold numbered_section, e, ev. cbn [e_head]. rewrite get_head, !get_default_head by discriminate. rewrite get_type. reflexivity.
Qed.
Lemma level_one_ev : level_one_section e = str_eqb s (lit "section") && val_eqb (get k_level d) (VInt 1).
Proof. unfold level_one_section, e, ev. cbn [e_head]. rewrite !get_head by discriminate. rewrite get_type. reflexivity. Qed.
End Ev.

Lemma simple_find : forall e, (forall t, numbered_as t e = false) -> find (fun s => numbered_as s e) simple_types = None.
Proof. intros e H. cbn. rewrite !H. reflexivity. Qed.

(** tokens that are neither sections nor appendices *)
Lemma cun_ok : forall before st app dep d s, lookup k_type d = Some (VStr s) -> s <> lit "appendix" -> s <> lit "section" ->
  st_ok before st ->
  exists st1, check_update_numbering st d =
      Ok (st1, match number_of before (ev app dep d) with Some x => set k_numbering (VStr x) d | None => d end) /\
    st_ok (before ++ [ev app dep d]) st1.
Proof.
  intros before st app dep d s Ht Ha Hs [O1 O2 O3 O4 O5 O6].
  set (e := ev app dep d).
  pose proof (has_type_ev app dep d s Ht) as T. pose proof (numbered_as_ev app dep d s Ht) as NA.
  pose proof (numbered_section_ev app dep d s Ht) as NS. pose proof (level_one_ev app dep d s Ht) as L1. fold e in T, NA, NS, L1.
  rewrite (str_eqb_neq s (lit "section")) in NS, L1 by exact Hs. cbn [andb] in NS, L1.
  assert (RS : forall z, restarts z e = false).
  { intros z. unfold restarts. rewrite T, NS, (str_eqb_neq s) by exact Ha. reflexivity. }
  assert (AL : forall z, at_level z e = false) by (intros z; unfold at_level; rewrite NS; reflexivity).
  assert (SC : forall z, section_count z (before ++ [e]) = section_count z before) by (intros z; rewrite section_count_snoc, RS, AL; lia).
  unfold check_update_numbering, getitem. rewrite Ht. unfold number_of. cbn [find simple_types].
  destruct (truthy (get k_numbered d)) eqn:Eb.
  2:{ rewrite !NA, !andb_false_r, NS. exists st. split; [reflexivity|].
      constructor; rewrite ?SC, ?since_snoc, ?L1, ?count_snoc, ?NA, ?andb_false_r, ?Nat.add_0_r; assumption. }
  cbn [bind is_str]. rewrite !NA, !andb_true_r.
  assert (K : forall st1,
     section_numbers st1 = section_numbers st ->
     math_env_number st1 = math_env_number st + (if str_eqb s (lit "math_env") then 1 else 0) ->
     equation_number st1 = equation_number st + (if str_eqb s (lit "equation") then 1 else 0) ->
     table_env_number st1 = table_env_number st + (if str_eqb s (lit "table") then 1 else 0) ->
     figure_env_number st1 = figure_env_number st + (if str_eqb s (lit "figure") then 1 else 0) ->
     algorithm_number st1 = algorithm_number st + (if str_eqb s (lit "algorithm") then 1 else 0) -> st_ok (before ++ [e]) st1).
  { intros st1 K1 K2 K3 K4 K5 K6. constructor; rewrite ?SC, ?since_snoc, ?L1; cbv iota; rewrite ?count_snoc, ?NA, ?andb_true_r; congruence. }
  destruct (str_eqb s (lit "equation")) eqn:E1.
  { eexists. split; [rewrite O3, Nat.add_1_r; reflexivity|]. apply str_eqb_spec in E1. subst s. apply K; lits; cbn [with_math section_numbers math_env_number equation_number table_env_number figure_env_number algorithm_number]; lia || congruence. }
  destruct (str_eqb s (lit "algorithm")) eqn:E2.
  { eexists. split; [rewrite O6, Nat.add_1_r; reflexivity|]. apply str_eqb_spec in E2. subst s. apply K; lits; cbn [with_math section_numbers math_env_number equation_number table_env_number figure_env_number algorithm_number]; lia || congruence. }
  destruct (str_eqb s (lit "math_env")) eqn:E3.
  { apply str_eqb_spec in E3. subst s. rewrite O1. cbn [zget Z.eqb Pos.eqb bind]. lits.
    eexists. split; [rewrite O2, Nat.add_1_r; reflexivity|]. apply K; lits; cbn [with_math section_numbers math_env_number equation_number table_env_number figure_env_number algorithm_number]; lia || congruence. }
  destruct (str_eqb s (lit "table")) eqn:E4.
  { eexists. split; [rewrite O4, Nat.add_1_r; reflexivity|]. apply str_eqb_spec in E4. subst s. apply K; lits; cbn [with_math section_numbers math_env_number equation_number table_env_number figure_env_number algorithm_number]; lia || congruence. }
  destruct (str_eqb s (lit "figure")) eqn:E5.
  { eexists. split; [rewrite O5, Nat.add_1_r; reflexivity|]. apply str_eqb_spec in E5. subst s. apply K; lits; cbn [with_math section_numbers math_env_number equation_number table_env_number figure_env_number algorithm_number]; lia || congruence. }
  rewrite NS. eexists. split; [reflexivity|]. apply K; lits; lia || congruence.
Qed.

(** an appendix *)
Lemma st_ok_appendix : forall before st app dep d, of_type "appendix" d -> st_ok before st ->
  st_ok (before ++ [ev app dep d]) (with_sections st (section_numbers cleared)) /\ number_of before (ev app dep d) = None.
Proof.
  intros before st app dep d Ht [O1 O2 O3 O4 O5 O6].
  set (e := ev app dep d).
  pose proof (has_type_ev app dep d _ Ht) as T. pose proof (numbered_as_ev app dep d _ Ht) as NA.
  pose proof (numbered_section_ev app dep d _ Ht) as NS. pose proof (level_one_ev app dep d _ Ht) as L1. fold e in T, NA, NS, L1.
  change (str_eqb (lit "appendix") (lit "section")) with false in *. cbn [andb] in NS, L1.
  assert (RS : forall z, restarts z e = true) by (intros z; unfold restarts; rewrite T; reflexivity).
  split.
  - constructor; cbn [section_numbers with_sections cleared math_env_number equation_number table_env_number figure_env_number algorithm_number];
    rewrite ?section_count_snoc, ?RS, ?since_snoc, ?L1, ?count_snoc, ?NA; cbn [str_eqb andb]; try reflexivity;
    match goal with |- context [str_eqb ?a ?b] => change (str_eqb a b) with false | _ => idtac end; cbn [andb]; rewrite Nat.add_0_r; assumption.
  - unfold number_of. cbn [find simple_types]. rewrite !NA, NS.
    repeat match goal with |- context [str_eqb ?a ?b] => change (str_eqb a b) with false end. reflexivity.
Qed.

(** sections *)
Lemma cun_section : forall st d, of_type "section" d -> check_update_numbering st d = Ok (st, d).
Proof.
  intros st d Ht. unfold check_update_numbering, getitem. rewrite Ht. destruct (truthy (get k_numbered d)); reflexivity.
Qed.

Lemma chr_ok : forall n, (N.of_nat n < 1114112)%N -> chr n = Ok [N.of_nat n].
Proof. intros n H. unfold chr. apply N.ltb_lt in H. rewrite H. reflexivity. Qed.

Lemma count_le : forall p l, count p l <= length l.
Proof. intros. unfold count. induction l as [|x l IH]; cbn; [lia|]. destruct (p x); cbn; lia. Qed.
Lemma since_le : forall p l, length (since p l) <= length l.
Proof. intros p. induction l as [|x l IH]; cbn; [lia|]. destruct (existsb p l); [lia|]. destruct (p x); cbn; lia. Qed.
Lemma section_count_le : forall z l, section_count z l <= length l.
Proof. intros. unfold section_count. eapply Nat.le_trans; [apply count_le|apply since_le]. Qed.

Lemma usn_ok : forall before st app dep d z, of_type "section" d -> lookup k_level d = Some (VInt z) ->
  (truthy (get_default k_numbered (VBool true) d) = true -> (1 <= z <= 3)%Z) -> st_ok before st ->
  (N.of_nat (length before + 1) < 1000000)%N ->
  exists st1, update_section_numbering st d true app =
      Ok (st1, match number_of before (ev app dep d) with Some x => set k_numbering (VStr x) d | None => d end) /\
    st_ok (before ++ [ev app dep d]) (match VInt z with VInt 1 => with_math st1 0 | _ => st1 end).
Proof.
  intros before st app dep d z Ht Hl Hz [O1 O2 O3 O4 O5 O6] Hlen.
  set (e := ev app dep d).
  pose proof (has_type_ev app dep d _ Ht) as T. pose proof (numbered_as_ev app dep d _ Ht) as NA.
  pose proof (numbered_section_ev app dep d _ Ht) as NS. pose proof (level_one_ev app dep d _ Ht) as L1. fold e in T, NA, NS, L1.
  assert (Eg : get k_level d = VInt z) by (unfold get; rewrite Hl; reflexivity).
  assert (Ed : get_default k_level (VInt 1) d = VInt z) by (unfold get_default; rewrite Hl; reflexivity).
  rewrite Ed in NS. rewrite Eg in L1. rewrite str_eqb_refl in NS, L1. cbn [andb val_eqb] in NS, L1.
  assert (NA0 : forall t, In t ["equation"; "algorithm"; "table"; "figure"; "math_env"]%string -> numbered_as t e = false).
  { intros t Hin. rewrite NA. repeat (destruct Hin as [<-|Hin]; [reflexivity|]). destruct Hin. }
  assert (Enum : number_of before e = match numbered_section e with Some z => Some (section_number app z (before ++ [e])) | None => None end).
  { unfold number_of. cbn [find simple_types]. rewrite !NA0 by (cbn; tauto). reflexivity. }
  assert (HK : forall st1, section_numbers st1 = [(1%Z, section_count 1 (before ++ [e])); (2%Z, section_count 2 (before ++ [e])); (3%Z, section_count 3 (before ++ [e]))] ->
     math_env_number st1 = math_env_number st -> equation_number st1 = equation_number st -> table_env_number st1 = table_env_number st ->
     figure_env_number st1 = figure_env_number st -> algorithm_number st1 = algorithm_number st ->
     st_ok (before ++ [e]) (match VInt z with VInt 1 => with_math st1 0 | _ => st1 end)).
  { intros st1 K1 K2 K3 K4 K5 K6.
    assert (Q : st_ok (before ++ [e]) (if Z.eqb z 1 then with_math st1 0 else st1)).
    { destruct (Z.eqb z 1) eqn:Ez; constructor; cbn [with_math section_numbers math_env_number equation_number table_env_number figure_env_number algorithm_number];
      rewrite ?since_snoc, ?L1, ?count_snoc, ?NA0, ?Nat.add_0_r by (cbn; tauto); try congruence; reflexivity. }
    destruct z as [|[p|p|]|p]; exact Q. }
  unfold update_section_numbering.
  destruct (truthy (get_default k_numbered (VBool true) d)) eqn:En; cbn [negb].
  2:{ exists st. rewrite Enum, NS. split; [reflexivity|]. apply HK; try reflexivity.
      assert (SC : forall y, section_count y (before ++ [e]) = section_count y before).
      { intros y. rewrite section_count_snoc. unfold restarts, at_level. rewrite T, NS. lits. cbn [orb]. lia. }
      rewrite !SC. exact O1. }
  rewrite Ed. cbn [as_int bind]. specialize (Hz eq_refl).
  assert (SC : forall y, section_count y (before ++ [e]) = if Z.ltb z y then 0 else section_count y before + (if Z.eqb z y then 1 else 0)).
  { intros y. rewrite section_count_snoc. unfold restarts, at_level. rewrite T, NS. lits. reflexivity. }
  assert (B : forall y, (N.of_nat (64 + section_count y (before ++ [e])) < 1114112)%N).
  { intros y. pose proof (section_count_le y (before ++ [e])) as Q. rewrite app_length in Q. cbn [length] in Q. lia. }
  assert (FC : (if app then chr (64 + section_count 1 (before ++ [e])) else Ok (str_of_nat (section_count 1 (before ++ [e])))) =
               Ok (first_component app (section_count 1 (before ++ [e])))).
  { unfold first_component. destruct app; [apply chr_ok; apply B|reflexivity]. }
  rewrite Enum, NS. rewrite O1. unfold section_number.
  assert (Hc : (z = 1 \/ z = 2 \/ z = 3)%Z) by lia.
  pose proof (SC 1%Z) as S1. pose proof (SC 2%Z) as S2. pose proof (SC 3%Z) as S3.
  generalize (section_count 1 before) (section_count 2 before) (section_count 3 before) S1 S2 S3. clear S1 S2 S3 O1 SC.
  intros a b c S1 S2 S3.
  destruct Hc as [->|[->| ->]].
  - change (1 <? 1)%Z with false in S1. change (1 =? 1)%Z with true in S1. change (1 <? 2)%Z with true in S2. change (1 <? 3)%Z with true in S3.
    cbv iota in S1, S2, S3.
    change (fold_left (fun m l => zset l 0 m) (zrange (1 + 1) (zmax_key [(1%Z, a); (2%Z, b); (3%Z, c)] + 1)) [(1%Z, a); (2%Z, b); (3%Z, c)])
      with [(1%Z, a); (2%Z, 0); (3%Z, 0)].
    change (zget 1 [(1%Z, a); (2%Z, 0); (3%Z, 0)]) with (Ok a). cbn [bind].
    change (zset 1 (a + 1) [(1%Z, a); (2%Z, 0); (3%Z, 0)]) with [(1%Z, a + 1); (2%Z, 0); (3%Z, 0)].
    change (zget 1 [(1%Z, a + 1); (2%Z, 0); (3%Z, 0)]) with (Ok (a + 1)). cbn [bind]. rewrite <- S1, FC. cbn [bind].
    change (zrange 2 (1 + 1)) with (@nil Z). cbn [mmap bind].
    eexists. split; [reflexivity|]. apply HK; try reflexivity. cbn [with_sections section_numbers]. congruence.
  - change (2 <? 1)%Z with false in S1. change (2 =? 1)%Z with false in S1. change (2 <? 2)%Z with false in S2. change (2 =? 2)%Z with true in S2. change (2 <? 3)%Z with true in S3.
    cbv iota in S1, S2, S3. rewrite Nat.add_0_r in S1.
    change (fold_left (fun m l => zset l 0 m) (zrange (2 + 1) (zmax_key [(1%Z, a); (2%Z, b); (3%Z, c)] + 1)) [(1%Z, a); (2%Z, b); (3%Z, c)])
      with [(1%Z, a); (2%Z, b); (3%Z, 0)].
    change (zget 2 [(1%Z, a); (2%Z, b); (3%Z, 0)]) with (Ok b). cbn [bind].
    change (zset 2 (b + 1) [(1%Z, a); (2%Z, b); (3%Z, 0)]) with [(1%Z, a); (2%Z, b + 1); (3%Z, 0)].
    change (zget 1 [(1%Z, a); (2%Z, b + 1); (3%Z, 0)]) with (Ok a). cbn [bind]. rewrite <- S1, FC. cbn [bind].
    change (zrange 2 (2 + 1)) with [2%Z]. cbn [mmap bind]. rewrite <- S2. cbn [zget Z.eqb Pos.eqb bind].
    eexists. split; [reflexivity|]. apply HK; try reflexivity. cbn [with_sections section_numbers]. congruence.
  - change (3 <? 1)%Z with false in S1. change (3 =? 1)%Z with false in S1. change (3 <? 2)%Z with false in S2. change (3 =? 2)%Z with false in S2.
    change (3 <? 3)%Z with false in S3. change (3 =? 3)%Z with true in S3.
    cbv iota in S1, S2, S3. rewrite Nat.add_0_r in S1, S2.
    change (fold_left (fun m l => zset l 0 m) (zrange (3 + 1) (zmax_key [(1%Z, a); (2%Z, b); (3%Z, c)] + 1)) [(1%Z, a); (2%Z, b); (3%Z, c)])
      with [(1%Z, a); (2%Z, b); (3%Z, c)].
    change (zget 3 [(1%Z, a); (2%Z, b); (3%Z, c)]) with (Ok c). cbn [bind].
    change (zset 3 (c + 1) [(1%Z, a); (2%Z, b); (3%Z, c)]) with [(1%Z, a); (2%Z, b); (3%Z, c + 1)].
    change (zget 1 [(1%Z, a); (2%Z, b); (3%Z, c + 1)]) with (Ok a). cbn [bind]. rewrite <- S1, FC. cbn [bind].
    change (zrange 2 (3 + 1)) with [2%Z; 3%Z]. cbn [mmap bind]. rewrite <- S2, <- S3. cbn [zget Z.eqb Pos.eqb bind].
    eexists. split; [reflexivity|]. apply HK; try reflexivity.
Qed.
