(** C110-C112: concrete texts, and how much of the table is covered. *)
From Coq Require Import List NArith ZArith PeanoNat Lia Bool String.
From Verif Require Import PyStr Regex RegexLemmas UnicodeTable UnicodeModel UnicodeSpec UnicodeProofs UnicodeProofs2 UnicodeProofs3 UnicodeProofs4 UnicodeProofs5.
Import ListNotations.
Notation length := List.length.
Notation concat := List.concat.
Open Scope list_scope.

(** * Deciding that a command is recognised *)
Definition cont_b (a b : str) : bool := match rev a with x :: _ => alpha x && alpha_head (skipn (length a) b) | [] => false end.
Definition apart_b (a b : str) : bool := implb (startswith b a) (cont_b a b) && implb (startswith a b) (cont_b b a).
Lemma cont_ok : forall a b, startswith b a = true -> cont_b a b = true -> continues a b.
Proof.
  intros a b H K. apply startswith_spec in H as (r & ->). unfold cont_b in K. destruct (rev a) as [|x s] eqn:E; [discriminate|].
  apply (f_equal (@rev ch)) in E. rewrite rev_involutive in E. cbn [rev] in E. apply andb_prop in K as [K1 K2].
  rewrite skipn_app, skipn_all, Nat.sub_diag in K2. cbn [skipn List.app] in K2. destruct r as [|y r]; [discriminate|]. exists (rev s), x, y, r.
  split; [exact E|]. split; [reflexivity|]. split; apply alpha_iff; assumption.
Qed.
Lemma apart_ok : forall a b, apart_b a b = true -> apart a b.
Proof.
  intros a b H. apply andb_prop in H as [H1 H2]. split; intros K; apply begins_iff in K.
  - rewrite K in H1. apply cont_ok; assumption.
  - rewrite K in H2. apply cont_ok; assumption.
Qed.

Fixpoint clear_go (m : str) : bool :=
  match m with
  | [] => true
  | x :: r => negb (N.eqb x c_bs) && (negb (N.eqb x c_lb) || match r with y :: _ => negb (in_str after_brace y) | [] => true end) && clear_go r
  end.
Lemma clear_go_ok : forall m a x r, clear_go m = true -> m = a ++ x :: r -> x <> c_bs /\ (x = c_lb -> forall y r', r = y :: r' -> ~ In y after_brace).
Proof.
  induction m as [|z m IH]; intros a x r H E; [destruct a; discriminate|]. cbn [clear_go] in H. apply andb_prop in H as [H H3]. apply andb_prop in H as [H1 H2].
  destruct a as [|a0 a].
  - injection E as <- <-. split.
    + intros ->. discriminate.
    + intros -> y r' ->. cbn [negb orb N.eqb] in H2. rewrite N.eqb_refl in H2. cbn [negb orb] in H2. intros X. unfold in_str in H2.
      replace (existsb (N.eqb y) after_brace) with true in H2; [discriminate|]. symmetry. apply existsb_exists. exists y. split; [exact X|apply N.eqb_refl].
  - injection E as <- E. apply (IH a x r H3 E).
Qed.
Definition clear_b (k : str) : bool := match k with [] => true | _ :: m => clear_go m end.
Lemma clear_ok : forall k, clear_b k = true -> clear k.
Proof.
  intros k H a x r E Ha. destruct k as [|z m]; [destruct a; discriminate|]. destruct a as [|a0 a]; [congruence|]. injection E as <- E. apply (clear_go_ok m a x r H E).
Qed.

Definition no_escape_b (k : str) : bool := negb (startswith k (lit "\u")) || existsb (fun x => negb (hexa x)) (firstn 4 (skipn 2 k)).
Lemma first_nonhex : forall n s, existsb (fun x => negb (hexa x)) (firstn n s) = true -> exists a x b, s = a ++ x :: b /\ length a < n /\ ~ a_hex x.
Proof.
  induction n as [|n IH]; intros s H; [discriminate|]. destruct s as [|x s]; [discriminate|]. cbn [firstn existsb] in H. apply Bool.orb_true_iff in H as [H|H].
  - exists [], x, s. split; [reflexivity|]. split; [cbn; lia|]. rewrite <- hexa_iff. destruct (hexa x); [discriminate|discriminate].
  - destruct (IH s H) as (a & y & b & -> & L & Hy). exists (x :: a), y, b. split; [reflexivity|]. split; [cbn; lia|exact Hy].
Qed.
Lemma no_escape_ok : forall k, no_escape_b k = true -> no_escape k.
Proof.
  intros k H r ->. unfold no_escape_b in H. rewrite startswith_app in H. cbn [negb orb] in H. change (skipn 2 (lit "\u" ++ r)) with r in H. apply first_nonhex. exact H.
Qed.

Definition ranked : list (str * nat) := map (fun e => (fst e, rank (fst e))) unicode_table.
Fixpoint clear_of (seen : bool) (k : str) (n : nat) (l : list (str * nat)) : bool :=
  match l with
  | [] => true
  | (k', n') :: r =>
      if str_eqb k' k then clear_of true k n r
      else (if Nat.ltb n' n || (Nat.eqb n' n && negb seen) then apart_b k' k else true) && clear_of seen k n r
  end.
Definition plain_b (v : str) : bool := forallb (fun x => negb (N.eqb x c_bs) && negb (N.eqb x c_lb) && negb (N.eqb x c_rb)) v.
Definition recognised_b (rk : list (str * nat)) (e : str * str) : bool :=
  let k := fst e in
  negb (str_eqb (snd e) []) && startswith k (lit "\") && clear_b k && no_escape_b k && str_eqb (strip k) k && negb (endswith k (lit "{}")) &&
  (Nat.eqb (rank k) 4 || plain_b (snd e)) && clear_of false k (rank k) rk.

Fixpoint once_b (l : list str) : bool := match l with [] => true | k :: r => negb (existsb (str_eqb k) r) && once_b r end.
Lemma keys_once : once_b (map fst unicode_table) = true.
Proof. vm_compute. reflexivity. Qed.
Local Opaque unicode_table.
Lemma once_split : forall l k (a b : list str), once_b l = true -> l = a ++ k :: b -> ~ In k a.
Proof.
  induction l as [|x l IH]; intros k a b H E; [destruct a; discriminate|]. cbn [once_b] in H. apply andb_prop in H as [H1 H2].
  destruct a as [|a0 a]; [intros []|]. injection E as <- E. intros [X|X]; [|exact (IH k a b H2 E X)]. subst x.
  replace (existsb (str_eqb k) l) with true in H1; [discriminate|]. symmetry. apply existsb_exists. exists k. split; [rewrite E; apply in_app_iff; right; left; reflexivity|apply str_eqb_spec; reflexivity].
Qed.

Lemma clear_rank : forall k n l k' n', clear_of true k n l = true \/ clear_of false k n l = true -> In (k', n') l -> k' <> k -> n' < n -> apart k' k.
Proof.
  intros k n l k' n' H Hin Hk Hn. revert H. induction l as [|(q, m) l IH]; [destruct Hin|]. intros H. cbn [clear_of] in H. destruct Hin as [Hin|Hin].
  - injection Hin as -> ->. assert (E : str_eqb k' k = false) by (apply Bool.not_true_is_false; rewrite str_eqb_spec; exact Hk). rewrite E in H.
    assert (L : Nat.ltb n' n = true) by (apply Nat.ltb_lt; exact Hn). rewrite L in H. cbn [orb] in H. destruct H as [H|H]; apply andb_prop in H as [H _]; apply apart_ok; exact H.
  - destruct (str_eqb q k); [apply IH; [exact Hin|]; left; destruct H; assumption|]. apply IH; [exact Hin|].
    destruct H as [H|H]; apply andb_prop in H as [_ H]; auto.
Qed.
Lemma clear_before : forall k n a b k' n', clear_of false k n (a ++ b) = true -> ~ In k (map fst a) -> In (k', n') a -> n' = n -> apart k' k.
Proof.
  intros k n a b k' n' H Ha Hin Hn. induction a as [|(q, m) a IH]; [destruct Hin|]. cbn [List.app clear_of] in H.
  assert (Hq : str_eqb q k = false) by (apply Bool.not_true_is_false; rewrite str_eqb_spec; intros ->; apply Ha; left; reflexivity).
  rewrite Hq in H. apply andb_prop in H as [H1 H2]. destruct Hin as [Hin|Hin].
  - injection Hin as -> ->. subst n'. rewrite Nat.eqb_refl in H1. cbn [negb andb] in H1. rewrite Bool.orb_true_r in H1. apply apart_ok. exact H1.
  - apply IH; [exact H2|intros X; apply Ha; right; exact X|exact Hin].
Qed.

Lemma recognised_ok : forall k v, In (k, v) unicode_table -> recognised_b ranked (k, v) = true -> recognised k v.
Proof.
  intros k v Hin H. unfold recognised_b in H. cbn [fst snd] in H. cbv zeta in H. apply andb_prop in H as [H H8]. apply andb_prop in H as [H H7]. apply andb_prop in H as [H H6].
  apply andb_prop in H as [H H5]. apply andb_prop in H as [H H4]. apply andb_prop in H as [H H3]. apply andb_prop in H as [H1 H2].
  pose proof (in_map fst _ _ Hin) as Hk. cbn [fst] in Hk.
  split; [exact Hin|]. split; [destruct v; [discriminate|discriminate]|]. split; [apply begins_iff; exact H2|]. split; [apply clear_ok; exact H3|].
  split; [apply no_escape_ok; exact H4|]. split; [apply str_eqb_spec; exact H5|].
  split. { intros (a & ->). rewrite ends_braces in H6. discriminate. }
  split.
  { apply Bool.orb_true_iff in H7 as [H7|H7].
    - left. apply Nat.eqb_eq in H7. rewrite <- H7. exact (proj1 (turn_rank k Hk)).
    - right. intros x X. pose proof (proj1 (forallb_forall _ _) H7 x X) as P. cbv beta in P. apply andb_prop in P as [P P3]. apply andb_prop in P as [P1 P2].
      repeat split; intros ->; discriminate. }
  intros k' Hk' (n' & n & T' & T & S). pose proof (turn_one _ _ _ T' (proj1 (turn_rank k' Hk'))). pose proof (turn_one _ _ _ T (proj1 (turn_rank k Hk))). subst n' n.
  assert (Hr : In (k', rank k') ranked).
  { unfold ranked. apply key_in in Hk' as (v' & Hv'). apply in_map_iff. exists (k', v'). split; [reflexivity|exact Hv']. }
  destruct S as [S|(S & v0 & a & b & E & Ha)].
  - apply (clear_rank k (rank k) ranked k' (rank k')); [right; exact H8|exact Hr| |exact S]. intros ->. lia.
  - assert (Ek : map fst unicode_table = map fst a ++ k :: map fst b) by (rewrite E, map_app; reflexivity).
    pose proof (once_split _ k (map fst a) (map fst b) keys_once Ek) as Na. unfold ranked in H8. rewrite E, map_app in H8.
    apply (clear_before k (rank k) _ _ k' (rank k') H8).
    + rewrite map_map. cbn [fst]. exact Na.
    + apply in_map_iff in Ha as ((q, w) & Eq & Ha). cbn [fst] in Eq. subst q. apply in_map_iff. exists (k', w). split; [reflexivity|exact Ha].
    + exact S.
Qed.
Lemma unknown_ok : forall k, startswith k (lit "\") && clear_b k && no_escape_b k && forallb (fun k' => apart_b k' k) (map fst unicode_table) = true -> unknown k.
Proof.
  intros k H. apply andb_prop in H as [H H4]. apply andb_prop in H as [H H3]. apply andb_prop in H as [H1 H2].
  split; [apply begins_iff; exact H1|]. split; [apply clear_ok; exact H2|]. split; [apply no_escape_ok; exact H3|].
  intros k' Hk'. apply apart_ok. apply (proj1 (forallb_forall _ _) H4 k' Hk').
Qed.
Lemma in_table : forall k v, existsb (fun e => str_eqb (fst e) k && str_eqb (snd e) v) unicode_table = true -> In (k, v) unicode_table.
Proof.
  intros k v H. apply existsb_exists in H as ((q, w) & H & K). cbn [fst snd] in K. apply andb_prop in K as [K1 K2]. apply str_eqb_spec in K1. apply str_eqb_spec in K2. subst. exact H.
Qed.
Local Transparent unicode_table.
Ltac known := apply recognised_ok; [apply in_table; vm_compute; reflexivity|vm_compute; reflexivity].

(** * A text: Erd\H{o}s {\alpha}\textdollar{}5 \u00e9t \foo \{ *)
Definition chars (s : string) : list item := map Ch (lit s).
Definition erdos : list item :=
  chars "Erd" ++ [Co (lit "\H{o}") [337%N] false] ++ chars "s {" ++ [Co (lit "\alpha") [945%N] false] ++ chars "}" ++
  [Co (lit "\textdollar") [36%N] true] ++ chars "5 " ++ [Hx (lit "00e9")] ++ chars "t " ++ [Un (lit "\foo")] ++ chars " " ++ [Co (lit "\{") [123%N] false].
Lemma erdos_written : written erdos = lit "Erd\H{o}s {\alpha}\textdollar{}5 \u00e9t \foo \{".
Proof. vm_compute. reflexivity. Qed.
Lemma erdos_meant : meant erdos = lit "Erd" ++ [337%N] ++ lit "s {" ++ [945%N] ++ lit "}$5 " ++ [233%N] ++ lit "t \foo {".
Proof. vm_compute. reflexivity. Qed.

Lemma nl : forall x l, ~ a_letter x -> no_letter_next (Ch x :: l).
Proof. intros x l H y [<-|[]]. exact H. Qed.
Lemma chars_well : forall s l, (forall x, In x (lit s) -> x <> c_bs /\ x <> c_lb) -> well l -> well (chars s ++ l).
Proof.
  intros s l. unfold chars. generalize (lit s). intros t. induction t as [|x t IH]; intros H W; [exact W|]. cbn [map List.app well]. split.
  - destruct (H x) as [H1 H2]; [left; reflexivity|]. split; [exact H1|]. intros K. contradiction.
  - apply IH; [intros y Y; apply H; right; exact Y|exact W].
Qed.
Ltac inert := let x := fresh in let H := fresh in intros x H; cbn in H; repeat (destruct H as [<-|H]; [split; discriminate|]); destruct H.
Lemma chars_open : forall s l, (forall x, In x (lit s) -> x <> c_bs /\ x <> c_lb) -> good_open l -> well l -> well (chars s ++ Ch c_lb :: l).
Proof. intros s l H G W. apply chars_well; [exact H|]. split; [|exact W]. split; [discriminate|]. intros _. exact G. Qed.
Lemma ends_not : forall (k : str) a x, k = a ++ [x] -> ~ a_letter x -> ~ ends_in_letter k.
Proof. intros k a x -> H (b & y & E & L). apply app_inj_tail in E as [_ ->]. contradiction. Qed.
Lemma brace_not : forall (k : str) a x, k = a ++ [x] -> x <> c_lb -> ~ ends_in_brace k.
Proof. intros k a x -> H (b & E). apply app_inj_tail in E as [_ E]. contradiction. Qed.
Lemma letter_no : forall x, alpha x = false -> ~ a_letter x.
Proof. intros x H K. apply alpha_iff in K. congruence. Qed.

Lemma erdos_well : well erdos.
Proof.
  unfold erdos. apply chars_well; [inert|]. split.
  { split; [known|]. split; [discriminate|]. split.
    - intros K. exfalso. revert K. apply (brace_not _ (lit "\H{o") c_rb); [reflexivity|discriminate].
    - intros _ K. exfalso. revert K. apply (ends_not _ (lit "\H{o") c_rb); [reflexivity|]. apply letter_no. reflexivity. }
  change (well (chars "s " ++ Ch c_lb :: Co (lit "\alpha") [945%N] false :: chars "}" ++
    [Co (lit "\textdollar") [36%N] true] ++ chars "5 " ++ [Hx (lit "00e9")] ++ chars "t " ++ [Un (lit "\foo")] ++ chars " " ++ [Co (lit "\{") [123%N] false])).
  apply chars_open; [inert| |].
  { split.
    - intros x X Y. cbn in X, Y. destruct X as [<-|[<-|[]]]; repeat (destruct Y as [Y|Y]; [discriminate|]); destruct Y.
    - split; apply apart_ok; reflexivity. }
  split.
  { split; [known|]. split; [discriminate|]. split.
    - intros K. exfalso. revert K. apply (brace_not _ (lit "\alph") 97%N); [reflexivity|discriminate].
    - intros _ _. split; [apply nl; apply letter_no; reflexivity|]. cbn. exact I. }
  apply chars_well; [inert|]. split.
  { split; [known|]. split; [intros _; exists (lit "\textdolla"), 114%N; split; [reflexivity|apply alpha_iff; reflexivity]|]. split.
    - intros K. exfalso. revert K. apply (brace_not _ (lit "\textdolla") 114%N); [reflexivity|discriminate].
    - discriminate. }
  apply chars_well; [inert|]. split.
  { split; [cbn; lia|]. split; [repeat (apply Forall_cons; [apply hexa_iff; reflexivity|]); apply Forall_nil|]. split; [vm_compute; discriminate|].
    split; [intros x [<-|[]]; repeat split; vm_compute; discriminate|]. intros _. cbn. rewrite <- hexa_iff. discriminate. }
  apply chars_well; [inert|]. split.
  { split; [apply unknown_ok; vm_compute; reflexivity|]. split.
    - intros K. exfalso. revert K. apply (brace_not _ (lit "\fo") 111%N); [reflexivity|discriminate].
    - intros _. apply nl. apply letter_no. reflexivity. }
  apply chars_well; [inert|]. split; [|exact I].
  split; [known|]. split; [discriminate|]. split; [intros _; split; [intros x []|exact I]|].
  intros _ K. exfalso. revert K. apply (ends_not _ (lit "\") c_lb); [reflexivity|]. apply letter_no. reflexivity.
Qed.

(** * What the conversion does beyond that *)
Lemma twice : convert (lit "\textbackslash{}alpha") = [945%N] /\ convert (lit "\textbackslash{}zz") = lit "\zz".
Proof. split; vm_compute; reflexivity. Qed.
Lemma line_break : convert (lit "\\alpha") = c_bs :: [945%N].
Proof. vm_compute. reflexivity. Qed.
Lemma key_untouched : In (lit "\boldsymbol{\mathit{A}}", [119912%N]) unicode_table /\ convert (lit "\boldsymbol{\mathit{A}}") = lit "\boldsymbol{" ++ [119860%N] ++ lit "}".
Proof. split; [apply in_table; vm_compute; reflexivity|vm_compute; reflexivity]. Qed.
Lemma greedy : convert (lit "caf\u00e9dite") = lit "caf" ++ [3741%N] ++ lit "ite" /\ number (lit "00e9") = 233%N.
Proof. split; vm_compute; reflexivity. Qed.
Lemma surrogates : convert (lit "\ud83d\ude00") = [55357%N; 56832%N].
Proof. vm_compute. reflexivity. Qed.
Lemma reread : convert (lit "\u005cpsi") = [968%N].
Proof. vm_compute. reflexivity. Qed.
Lemma too_big : convert (lit "\u110000") = 774%N :: lit "110000".
Proof. vm_compute. reflexivity. Qed.
Lemma once_no : convert (lit "\textbackslash{}") = [c_bs] /\ convert (lit "alpha") = lit "alpha" /\ convert (lit "\textbackslash{}" ++ lit "alpha") <> [c_bs] ++ lit "alpha".
Proof. split; [vm_compute; reflexivity|]. split; [vm_compute; reflexivity|]. change (lit "\textbackslash{}" ++ lit "alpha") with (lit "\textbackslash{}alpha"). rewrite (proj1 twice). discriminate. Qed.
Lemma break_no : convert (lit "\\" ++ lit "alpha") <> lit "\\" ++ lit "alpha" /\ convert (lit "alpha") = lit "alpha".
Proof. split; [|vm_compute; reflexivity]. change (lit "\\" ++ lit "alpha") with (lit "\\alpha"). rewrite line_break. discriminate. Qed.
Lemma sequence : forall ds l, 4 <= length ds <= 6 -> Forall a_hex ds -> (number ds <= 1114111)%N -> plain_value [number ds] ->
  (length ds < 6 -> match l with Ch x :: _ => ~ a_hex x | _ => True end) -> well l ->
  convert (lit "\u" ++ ds ++ written l) = number ds :: meant l.
Proof.
  intros ds l H1 H2 H3 H4 H5 W. assert (K : well (Hx ds :: l)) by (split; [repeat split; try assumption; try (apply H1); apply (H4 x); assumption|exact W]).
  pose proof (convert_items _ K) as E. rewrite app_assoc. exact E.
Qed.
Lemma sequence_case : convert (lit "\u00e9t") = [233%N; 116%N].
Proof. vm_compute. reflexivity. Qed.
Lemma four_no : exists ds w, length ds = 4 /\ Forall a_hex ds /\ convert (lit "\u" ++ ds ++ w) <> number ds :: w.
Proof.
  exists (lit "00e9"), (lit "dite"). split; [reflexivity|]. split; [repeat (apply Forall_cons; [apply hexa_iff; reflexivity|]); apply Forall_nil|].
  assert (E : convert (lit "\u" ++ lit "00e9" ++ lit "dite") = 3741%N :: lit "ite") by (vm_compute; reflexivity). rewrite E. discriminate.
Qed.
Lemma beyond_no : exists ds, Forall a_hex ds /\ (1114111 < number ds)%N /\ convert (lit "\u" ++ ds) <> lit "\u" ++ ds.
Proof.
  exists (lit "110000"). split; [repeat (apply Forall_cons; [apply hexa_iff; reflexivity|]); apply Forall_nil|]. split; [reflexivity|].
  change (lit "\u" ++ lit "110000") with (lit "\u110000"). rewrite too_big. discriminate.
Qed.
Lemma plain_case : convert (lit "No command here, 100% of it}.") = lit "No command here, 100% of it}.".
Proof. vm_compute. reflexivity. Qed.
Lemma unknown_stays : forall k l, unknown k -> (ends_in_brace k -> good_open l) -> (ends_in_letter k -> no_letter_next l) -> well l ->
  convert (k ++ written l) = k ++ meant l.
Proof.
  intros k l H1 H2 H3 W. assert (K : well (Un k :: l)) by (split; [split; [exact H1|split; assumption]|exact W]).
  exact (convert_items _ K).
Qed.
Lemma section_unknown : unknown (lit "\section").
Proof. apply unknown_ok. vm_compute. reflexivity. Qed.
Lemma braces_no : ~ In c_bs (lit "x{'}y") /\ convert (lit "x{'}y") <> lit "x{'}y".
Proof.
  split; [intros H; cbn in H; repeat (destruct H as [H|H]; [discriminate H|]); exact H|].
  assert (E : convert (lit "x{'}y") = lit "x" ++ [8242%N] ++ lit "y") by (vm_compute; reflexivity). rewrite E. discriminate.
Qed.
