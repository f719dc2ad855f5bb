(** Documents on which the main loop does not end, and concrete runs. *)
From Coq Require Import List NArith ZArith PeanoNat Lia Bool String.
From Verif Require Import PyStr Regex RegexLemmas RegexHead TexUtilsModel EnvModel DelimSpec DelimProofs Json BuilderModel TokensModel CommandModel CommandSpec CommandProofs CommandProofs5 CommandCases ParseModel ParseSpec ParseProofs ParseWeight ParseCore.
Import ListNotations. Notation length := List.length. Notation concat := List.concat. Open Scope list_scope.

Lemma delim_rel0 : forall t j, rel DELIM t 0 j -> exists m, re_search DELIM t = Some m /\ m_start m = 0.
Proof.
  intros t j H. unfold re_search. destruct (re_search_from DELIM t 0) as [m|] eqn:E.
  - exists m. split; [reflexivity|]. apply re_search_some in E as (_ & _ & _ & _ & N). destruct (m_start m) as [|k]; [reflexivity|]. exfalso. apply (N 0 j); [lia|exact H].
  - exfalso. rewrite re_search_none in E. apply (E 0 j); [lia|exact H].
Qed.
Lemma delim_command : forall x t, in_str (lit "$%&_#{}^~\") x = false -> exists m, re_search DELIM (c_bs :: x :: t) = Some m /\ m_start m = 0.
Proof.
  intros x t Hx. apply (delim_rel0 _ 1). eapply rel_seq; [apply rel_behind; reflexivity|]. cbn [ralt].
  repeat apply rel_altr || idtac.
  apply rel_rseq2. exists 1. split; [apply rel_is_ch; split; [reflexivity|eexists; reflexivity]|].
  apply rel_nahead. intros c. unfold rcls. cbn [rm]. unfold next_is. cbn [nth_error]. rewrite Hx. reflexivity.
Qed.
(** a delimiter needs one of the special characters *)
Lemma delim_absent : forall t, ~ In c_bs t -> ~ In c_dollar t -> ~ In c_pct t -> ~ In c_lb t -> re_search DELIM t = None.
Proof.
  intros t H1 H2 H3 H4. unfold re_search. apply re_search_none. intros i j _ H.
  apply rel_rseq2 in H as (k & _ & H). cbn [ralt] in H.
  assert (Ch : forall x n m, rel (is_ch x) t n m -> In x t).
  { intros x n m R. apply rel_is_ch in R as (_ & r & E). rewrite <- (firstn_skipn n t), E. apply in_or_app. right. left. reflexivity. }
  assert (St : forall x s n m, rel (rstr (x :: s)) t n m -> In x t).
  { intros x s n m R. cbn [rstr] in R. apply rel_rseq2 in R as (q & R & _). eapply Ch; eauto. }
  repeat (apply rel_alt2 in H as [H|H]); try (eapply St in H; tauto); try (eapply Ch in H; tauto).
  all: try (apply rel_rseq2 in H as (q & Ha & Hb); try (eapply Ch in Hb; tauto); eapply Ch in Ha; tauto).
Qed.

(** * Unclosed \begingroup *)
Section Group.
Variables (St : Type) (isword : ch -> bool).
Variable expand : St -> str -> res str.
Variable user_command : St -> str -> res (option (str * Z)).
Variable define : St -> str -> res (St * Z).
Variable if_else legacy : St -> str -> res (option (str * Z)).
Variable process : parser St -> bool -> tok_in -> St -> list dict -> run (St * list dict).
Variable on_label : St -> str -> list dict -> res (St * list dict).
Variable is_env is_new : St -> str -> bool.
Variable on_env on_new : parser St -> St -> str -> run (St * tok_in * Z).
Variable before after : list (handler St).
Let envs := environments St isword is_env is_new on_env on_new.
Let handlers := before ++ [envs] ++ after.

Lemma group_unclosed : forall rest : str, isword 112%N = true -> (forall x r, rest = x :: r -> isword x = false) ->
  (forall p q, rest <> p ++ lit "\endgroup" ++ q) -> try_match_group isword (lit "\begingroup" ++ rest) = (TNone, 0%Z) /\
  exists m, re_match_at (P_group isword) (lit "\begingroup" ++ rest) 0 = Some m.
Proof.
  intros rest Hp Hb Hn. set (t := lit "\begingroup" ++ rest).
  assert (Bd : rel (RBound isword) t 11 11).
  { apply rel_bound. unfold t. change (lit "\begingroup" ++ rest) with ((lit "\begingrou" ++ [112%N]) ++ rest). unfold prev_is, next_is.
    replace (nth_error ((lit "\begingrou" ++ [112%N]) ++ rest) 10) with (Some 112%N) by reflexivity. rewrite Hp.
    replace (nth_error ((lit "\begingrou" ++ [112%N]) ++ rest) 11) with (nth_error rest 0) by reflexivity.
    destruct rest as [|x r]; [reflexivity|]. cbn [nth_error]. rewrite (Hb x r eq_refl). reflexivity. }
  assert (M : exists m, re_match_at (P_group isword) t 0 = Some m /\ m_group0 t m = lit "\begingroup").
  { destruct (re_match_at (P_group isword) t 0) as [m|] eqn:E.
    - exists m. split; [reflexivity|]. apply re_match_at_some in E as (Es & R & _); [|lia]. unfold m_group0. rewrite Es.
      assert (Em : m_end m = 11); [|rewrite Em; reflexivity]. unfold P_group in R. cbn [rseq] in R.
      apply rel_rseq2 in R as (a & R1 & R). apply rel_is_ch in R1 as [-> _]. apply rel_rseq2 in R as (b & R2 & R).
      apply rel_rseq2 in R as (c & R3 & R). apply rel_rstr in R3 as (-> & r3 & E3). inversion R; subst.
      apply rel_alt2 in R2 as [R2|R2]; apply rel_rstr in R2 as (-> & r2 & E2); [cbn; lia|]. exfalso. vm_compute in E3. discriminate E3.
    - exfalso. rewrite re_match_at_none in E by lia. apply (E 11). unfold P_group. cbn [rseq].
      apply rel_rseq2. exists 1. split; [apply rel_is_ch; split; [reflexivity|eexists; reflexivity]|].
      apply rel_rseq2. exists 6. split; [apply rel_altl, rel_rstr; split; [reflexivity|eexists; reflexivity]|].
      apply rel_rseq2. exists 11. split; [apply rel_rstr; split; [reflexivity|eexists; reflexivity]|]. exact Bd. }
  destruct M as (m & Em & Eg). split; [|exists m; exact Em].
  unfold try_match_group. rewrite Em, Eg. replace (contains (lit "bgroup") (lit "\begingroup")) with false by reflexivity. cbv zeta.
  unfold extract_nested_content_pattern.
  destruct (re_search_from (word_re isword "\begingroup") t 0) as [bm|] eqn:Eb; [|reflexivity].
  cbn [encp_loop]. assert (None' : re_search_from (word_re isword "\endgroup") t (m_end bm) = None).
  { apply re_search_none. intros i j _ R. apply rel_rseq2 in R as (k & R & _). apply rel_rstr in R as (_ & r & E).
    destruct (Nat.le_gt_cases 11 i) as [L|L].
    - apply (Hn (firstn (i - 11) rest) r). transitivity (firstn (i - 11) rest ++ skipn (i - 11) rest); [symmetry; apply firstn_skipn|]. f_equal.
      rewrite <- E. unfold t. rewrite skipn_app. rewrite (skipn_all2 (n := i) (lit "\begingroup")) by (change (length (lit "\begingroup")) with 11; lia). reflexivity.
    - assert (C : forall k, k < 11 -> nth_error (skipn k t) 1 <> Some 101%N \/ nth_error (skipn k t) 0 <> Some 92%N \/ nth_error (skipn k t) 2 <> Some 110%N).
      { clear. intros k L. do 11 (destruct k as [|k]; [vm_compute; (right; left; congruence) || (right; right; congruence)|]). lia. }
      destruct (C i L) as [C1|[C1|C1]]; apply C1; rewrite E; reflexivity. }
  rewrite None'. destruct (Nat.ltb 0 1 && Nat.ltb (m_end bm) (length t)); reflexivity.
Qed.

Theorem group_diverges : forall doc rest s o,
  strip_latex_comments doc = lit "\begingroup" ++ rest ->
  (forall p q, rest <> p ++ lit "\endgroup" ++ q) ->
  isword 112%N = true -> (forall x r, rest = x :: r -> isword x = false) ->
  let t := lit "\begingroup" ++ rest in
  user_command s t = Ok None -> define s t = Ok (s, 0%Z) -> if_else s t = Ok None -> legacy s t = Ok None ->
  Forall (fun h => h_can h s t = false) before -> is_env s t = false -> is_new s t = false ->
  forall fuel, parse St expand user_command define if_else legacy handlers process on_label fuel o s doc = None.
Proof.
  intros doc rest s o Ed Hn Hp Hb t Eu Edf Ei El Hbf He Hne fuel. unfold parse. rewrite Ed. fold t.
  apply (loop_never St expand user_command define if_else legacy handlers process on_label
    (fun s' c pos tk => s' = s /\ c = t /\ pos = 0%Z)); [|auto].
  intros ps s' c pos tk (-> & -> & ->). exists s, t, 0%Z, tk. split; [|auto].
  assert (Eh : check_handlers St process ps handlers s t tk = ret (s, tk, Some 0%Z)).
  { unfold handlers. clear -Hbf He Hne Hp Hb Hn. subst t. destruct (group_unclosed rest Hp Hb Hn) as (G & m & Em). set (t := lit "\begingroup" ++ rest) in *.
    induction before as [|h l IH]; cbn [app check_handlers].
    - assert (C : h_can envs s t = true) by (unfold envs, environments; cbn [h_can]; rewrite Em, orb_true_r; reflexivity). rewrite C.
      unfold apply_handler, envs, environments. cbn [h_run]. rewrite Hne, He, G. reflexivity.
    - inversion Hbf as [|? ? B1 B2]; subst. rewrite B1. apply IH. exact B2. }
  unfold step. change ((0 <? Z.of_nat (length t))%Z) with true. cbv iota.
  replace (skip_spaces (Z.to_nat (Z.of_nat (length t) - 0)) t 0) with 0%Z.
  2:{ unfold t. rewrite app_length. replace (Z.to_nat (Z.of_nat (length (lit "\begingroup") + length rest) - 0)) with (S (10 + length rest)) by (cbn [lit length]; vm_compute length; lia). reflexivity. }
  cbv zeta. change ((Z.of_nat (length t) <=? 0)%Z) with false. cbv iota.
  change (at_pos t 0) with (@Ok ch 92%N). cbn [rbind]. change (N.eqb 92%N c_lb) with false. cbv iota.
  unfold after_group. change (from t 0) with t.
  destruct (delim_command 98%N (lit "egingroup" ++ rest) eq_refl) as (m & Em & Z0). change (c_bs :: 98%N :: lit "egingroup" ++ rest) with t in Em. rewrite Em, Z0. cbn [Nat.ltb Nat.leb].
  unfold dispatch. change (from t 0) with t. rewrite Eu. cbn [rbind]. rewrite Edf. cbn [rbind]. change ((0 <? 0)%Z) with false. cbv iota. rewrite Ei. cbn [rbind].
  replace (if legacy_on o then legacy s t else Ok None) with (@Ok (option (str * Z)) None) by (destruct (legacy_on o); [symmetry; exact El|reflexivity]). cbn [rbind].
  rewrite Eh. reflexivity.
Qed.
End Group.

(** * Concrete documents, with the macros and handlers of ParseCore.v *)
Section Concrete.
Variable isalnum : ch -> bool.
Variable ifs : str -> option (str * str).
Variable ew : str -> bool.
Notation stp := (step cstate (core_expand isalnum ew) core_user (core_define isalnum ifs ew) none_of none_of core_handlers core_process core_label).
Notation lp := (loop cstate (core_expand isalnum ew) core_user (core_define isalnum ifs ew) none_of none_of core_handlers core_process core_label).
Lemma overpic_diverges : forall fuel, core_parse isalnum ifs ew fuel empty (lit " \begin{overpic}[width=1cm]{a.png}") = None.
Proof.
  intros fuel. apply (loop_never cstate (core_expand isalnum ew) core_user (core_define isalnum ifs ew) none_of none_of core_handlers core_process core_label
    (fun s c pos tk => s = empty /\ c = lit " \begin{overpic}[width=1cm]{a.png}" /\ tk = [] /\ pos = 0%Z)).
  - intros ps s c pos tk (-> & -> & -> & ->).
    exists empty, (lit " \begin{overpic}[width=1cm]{a.png}"), 0%Z, []. split; [vm_compute; reflexivity|auto].
  - repeat split.
Qed.
Definition diagram : dict := [(k_type, VStr (lit "diagram")); (k_name, VStr (lit "tikzpicture")); (k_content, VStr [])].
Lemma tikz_diverges : forall fuel, core_parse isalnum ifs ew fuel empty (lit " \begin{tikzpicture}\draw") = None.
Proof.
  intros fuel. apply (loop_never cstate (core_expand isalnum ew) core_user (core_define isalnum ifs ew) none_of none_of core_handlers core_process core_label
    (fun s c pos tk => s = empty /\ c = lit " \begin{tikzpicture}\draw" /\ pos = 0%Z)).
  - intros ps s c pos tk (-> & -> & ->).
    exists empty, (lit " \begin{tikzpicture}\draw"), 0%Z, (tk ++ [diagram]). split; [vm_compute; reflexivity|auto].
  - repeat split.
Qed.
(** at the beginning of a text the position becomes -1 and everything is lost *)
Lemma overpic_lost : forall fuel, core_parse isalnum ifs ew (2 + fuel) empty (lit "\begin{overpic} The whole paper.") = Some (Ok (empty, [])).
Proof. intros fuel. unfold core_parse, parse. cbn [loop Nat.add]. vm_compute. reflexivity. Qed.

Definition two_defs : str := lit "\newcommand{\a}{\b}\newcommand{\b}{\a}".
Lemma macros_diverge : forall fuel, core_parse isalnum ifs ew fuel empty (two_defs ++ lit "\a") = None.
Proof.
  intros fuel. 
  assert (E1 : exists st1, forall ps, stp ps default_opts empty (two_defs ++ lit "\a") 0 [] = ret (Next st1 (two_defs ++ lit "\a") 19 [])) by (eexists; intros ps; vm_compute; reflexivity).
  destruct E1 as (st1 & E1).
  assert (E2 : exists st2, forall ps, stp ps default_opts st1 (two_defs ++ lit "\a") 19 [] = ret (Next st2 (two_defs ++ lit "\a") 38 [])).
  { specialize (E1 (fun _ s _ => ret (s, []))). vm_compute in E1. injection E1 as <-. eexists. intros ps. vm_compute. reflexivity. }
  destruct E2 as (st2 & E2).
  assert (E3 : forall ps, stp ps default_opts st2 (two_defs ++ lit "\a") 38 [] = ret (Next st2 (two_defs ++ lit "\b") 38 []) /\
                         stp ps default_opts st2 (two_defs ++ lit "\b") 38 [] = ret (Next st2 (two_defs ++ lit "\a") 38 [])).
  { specialize (E1 (fun _ s _ => ret (s, []))). vm_compute in E1. injection E1 as <-. specialize (E2 (fun _ s _ => ret (s, []))). vm_compute in E2. injection E2 as <-.
    intros ps. split; vm_compute; reflexivity. }
  apply (loop_never cstate (core_expand isalnum ew) core_user (core_define isalnum ifs ew) none_of none_of core_handlers core_process core_label
    (fun s c pos tk => tk = [] /\ ((s = empty /\ c = two_defs ++ lit "\a" /\ pos = 0%Z) \/ (s = st1 /\ c = two_defs ++ lit "\a" /\ pos = 19%Z) \/
       (s = st2 /\ c = two_defs ++ lit "\a" /\ pos = 38%Z) \/ (s = st2 /\ c = two_defs ++ lit "\b" /\ pos = 38%Z)))).
  - intros ps s c pos tk (-> & [(-> & -> & ->)|[(-> & -> & ->)|[(-> & -> & ->)|(-> & -> & ->)]]]).
    + eexists _, _, _, _. split; [apply E1|]. tauto.
    + eexists _, _, _, _. split; [apply E2|]. tauto.
    + eexists _, _, _, _. split; [apply E3|]. tauto.
    + eexists _, _, _, _. split; [apply E3|]. tauto.
  - split; [reflexivity|]. left. repeat split; reflexivity.
Qed.
(** an unclosed argument of an unknown command *)
Lemma unknown_unclosed : forall fuel, core_parse isalnum ifs ew (3 + fuel) empty (lit "A paper. \foo{bar") = Some (Raise TypeError).
Proof. intros fuel. unfold core_parse, parse. cbn [loop Nat.add]. vm_compute. reflexivity. Qed.
(** a group glues the words around it *)
Lemma group_glues : forall fuel, core_parse isalnum ifs ew (6 + fuel) empty (lit "two {words} here") = Some (Ok (empty, [text_token (lit "twowords here")])).
Proof. intros fuel. unfold core_parse, parse. cbn [loop Nat.add]. vm_compute. reflexivity. Qed.
End Concrete.

(** * Plain text *)
Section Plain.
Variable St : Type.
Variable expand : St -> str -> res str.
Variable user_command : St -> str -> res (option (str * Z)).
Variable define : St -> str -> res (St * Z).
Variable if_else legacy : St -> str -> res (option (str * Z)).
Variable handlers : list (handler St).
Variable process : parser St -> bool -> tok_in -> St -> list dict -> run (St * list dict).
Variable on_label : St -> str -> list dict -> res (St * list dict).
Notation prs := (parse St expand user_command define if_else legacy handlers process on_label).
Lemma lstrip_head : forall t x r, lstrip t = x :: r -> isspace x = false.
Proof. induction t as [|y t IH]; intros x r E; cbn [lstrip] in E; [discriminate|]. destruct (isspace y) eqn:Ey; [eapply IH; eauto|]. injection E as -> _. exact Ey. Qed.
Lemma lstrip_incl : forall t y, In y (lstrip t) -> In y t.
Proof. induction t as [|x t IH]; intros y H; [exact H|]. cbn [lstrip] in H. destruct (isspace x); [right; auto|exact H]. Qed.
Lemma plain_text : forall fuel o s content x, let t := strip_latex_comments content in
  ~ In c_bs t -> ~ In c_dollar t -> ~ In c_pct t -> ~ In c_lb t ->
  (if unknown_on o then expand s (lstrip t) = Ok x else x = lstrip t) ->
  prs (S fuel) o s content = Some (Ok (s, if nilb (lstrip t) || nilb x then [] else [text_token x])).
Proof.
  intros fuel o s content x t H1 H2 H3 H4 Hx. unfold parse. fold t. cbn [loop]. unfold step.
  destruct (0 <? Z.of_nat (length t))%Z eqn:L.
  2:{ apply Z.ltb_ge in L. destruct t as [|y t']; [reflexivity|cbn in L; lia]. }
  apply Z.ltb_lt in L. cbv zeta. pose proof (skip_spaces_lstrip t 0%Z ltac:(lia)) as Sk. change (skipn (Z.to_nat 0) t) with t in Sk.
  pose proof (skip_spaces_ge (Z.to_nat (Z.of_nat (length t) - 0)) t 0%Z ltac:(lia)) as G1.
  pose proof (skip_spaces_le (Z.to_nat (Z.of_nat (length t) - 0)) t 0%Z ltac:(lia)) as G2.
  set (pos := skip_spaces (Z.to_nat (Z.of_nat (length t) - 0)) t 0) in *. clearbody pos.
  destruct (Z.of_nat (length t) <=? pos)%Z eqn:L2.
  { apply Z.leb_le in L2. rewrite skipn_all2 in Sk by lia. rewrite <- Sk. reflexivity. }
  apply Z.leb_gt in L2. destruct (at_pos_in t pos) as (y & Ey & Es); [lia|]. rewrite Ey. cbn [rbind]. rewrite <- from_nat in Es, Sk by lia.
  assert (Inc : forall z, In z (from t pos) -> In z t) by (intros z Hz; rewrite Sk in Hz; apply lstrip_incl; exact Hz).
  assert (Ny : N.eqb y c_lb = false).
  { apply N.eqb_neq. intros ->. apply H4. apply Inc. rewrite Es. left. reflexivity. }
  rewrite Ny. unfold after_group. rewrite delim_absent by (intros C; apply Inc in C; contradiction).
  assert (Ln : length (from t pos) = length t - Z.to_nat pos) by (rewrite from_nat by lia; apply skipn_length).
  replace (Nat.ltb 0 (length (from t pos))) with true by (symmetry; apply Nat.ltb_lt; lia).
  unfold take_text. rewrite between_nat by lia. rewrite firstn_all. rewrite Sk in Es |- *. rewrite Es. cbv zeta.
  replace (endswith (y :: skipn (S (Z.to_nat pos)) t) [c_lb]) with false.
  2:{ symmetry. apply not_true_is_false. intros C. apply endswith_one in C as (p & C). apply H4. apply Inc. rewrite Sk, Es, C. apply in_or_app. right. left. reflexivity. }
  rewrite Es in Hx. destruct (unknown_on o); [rewrite Hx|subst x]; cbn [rbind ret]; [destruct x as [|x0 x]|]; reflexivity.
Qed.
End Plain.

(** * Acyclic macros *)
Lemma macros_end : forall St (mac : St -> cstate) expand define if_else legacy handlers process on_label ms rank o s content fuel,
  (forall n b, In (n, b) ms -> word n) -> NoDup (map fst ms) -> acyclic ms rank ->
  let W := macro_weight ms rank in
  let I := fun s => mac s = {| c_cmds := table ms; c_lets := [] |} in
  replacing_shrinks St W I if_else -> replacing_shrinks St W I legacy -> Forall (handler_progress St W I process) handlers ->
  keeps_state St I define -> keeps_label St I on_label -> I s -> W (strip_latex_comments content) < fuel ->
  parse St expand (fun s t => Ok (option_map (fun p => (fst p, Z.of_nat (snd p))) (handle_command letter (mac s) t))) define if_else legacy handlers process on_label fuel o s content <> None.
Proof.
  intros St mac expand define if_else legacy handlers process on_label ms rank o s content fuel Hw Nd Ac W I Hi Hl Hh Hd Hb Is L E.
  pose proof (parse_ends St W I expand (fun s t => Ok (option_map (fun p => (fst p, Z.of_nat (snd p))) (handle_command letter (mac s) t))) define if_else legacy handlers process on_label
    (weight_ok _ ms Hw) (macros_shrink St mac ms rank Hw Nd Ac) Hi Hl Hh Hd Hb fuel o s content Is L) as P. rewrite E in P. exact P.
Qed.
Lemma general_end : forall St W I expand user_command define if_else legacy handlers process on_label o s content fuel, weight W ->
  replacing_shrinks St W I user_command -> replacing_shrinks St W I if_else -> replacing_shrinks St W I legacy -> Forall (handler_progress St W I process) handlers ->
  keeps_state St I define -> keeps_label St I on_label -> I s -> W (strip_latex_comments content) < fuel ->
  parse St expand user_command define if_else legacy handlers process on_label fuel o s content <> None.
Proof.
  intros St W I expand user_command define if_else legacy handlers process on_label o s content fuel HW Hu Hi Hl Hh Hd Hb Is L E.
  pose proof (parse_ends St W I expand user_command define if_else legacy handlers process on_label HW Hu Hi Hl Hh Hd Hb fuel o s content Is L) as P. rewrite E in P. exact P.
Qed.

Definition ms_chain : list (str * str) := [(lit "b", lit "x\a y"); (lit "a", lit "z")].
Definition chain_rank (n : str) : nat := if str_eqb n (lit "b") then 1 else 0.
Lemma ms_chain_ok : (forall n b, In (n, b) ms_chain -> word n) /\ NoDup (map fst ms_chain) /\ acyclic ms_chain chain_rank /\
  macro_weight ms_chain chain_rank (lit "\b\b{}") = 18.
Proof.
  assert (Wa : word (lit "a")) by (apply (word_check _ [] 97%N); reflexivity).
  assert (Wb : word (lit "b")) by (apply (word_check _ [] 98%N); reflexivity).
  split; [|split; [|split; [|vm_compute; reflexivity]]].
  - intros n b [[= <- <-]|[[= <- <-]|[]]]; assumption.
  - cbn. repeat constructor; cbn; intros H; repeat destruct H as [H|H]; try discriminate; try contradiction.
  - intros n b m c [[= <- <-]|[[= <- <-]|[]]] [[= <- <-]|[[= <- <-]|[]]] U; try (vm_compute; lia); exfalso; revert U; apply uses_search; try assumption; vm_compute; reflexivity.
Qed.
