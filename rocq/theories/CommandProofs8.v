From Coq Require Import List NArith ZArith PeanoNat Lia Bool String.
From Verif Require Import PyStr Regex RegexLemmas RegexHead TexUtilsModel DelimSpec DelimProofs DelimFinal SubstModel SubstSpec SubstProofs ContentModel ContentSpec ContentProofs ContentProofs2 ContentProofs3 CommandModel CommandSpec CommandProofs CommandProofs2 CommandProofs3 CommandProofs4 CommandProofs6 CommandProofs7 TableProofs2.
Import ListNotations. Notation length := List.length. Notation concat := List.concat. Open Scope list_scope.

(** * Reading \def *)
Definition def_item : re := RAlt (RSeq (is_ch c_hash) (rplus rdigit)) (rncls [c_lb]).
Lemma def_items : forall l (t : str) i r, skipn i t = hashes l ++ c_lb :: r -> star_steps def_item t i (i + length (hashes l)).
Proof.
  induction l as [|n l IH]; intros t i r E.
  - cbn [hashes map concat List.app length] in *. rewrite Nat.add_0_r. apply ss_stop; [eapply skipn_le; exact E|]. intros c. unfold def_item. apply rm_alt_none; [apply rm_seq_none|]; apply rm_chr_none; rewrite E; reflexivity.
  - assert (Eh : hashes (n :: l) = hash n ++ hashes l) by reflexivity. rewrite Eh in *. rewrite <- app_assoc in E.
    assert (L : 0 < length (hash n)) by (unfold hash; cbn; lia).
    apply ss_step with (j := i + length (hash n)); [lia| |].
    + intros c. unfold def_item. apply fm_alt_left. unfold hash in *. rewrite <- app_assoc in E. eapply fm_seq; [apply (fm_is_ch c_hash t i c _ E)|]. apply skipn_more1 in E.
      replace (i + length ([c_hash] ++ str_of_nat n)) with (S i + length (str_of_nat n)) by (cbn; lia). apply (fm_plus isdigit t (S i) c (str_of_nat n) _ E (str_of_nat_nonempty n) (str_of_nat_digits n)). apply hashes_head. reflexivity.
    + rewrite app_length, Nat.add_assoc. apply (IH t _ r). apply skipn_more in E. exact E.
Qed.
Lemma hashes_nospace : forall l x, In x (hashes l) -> isspace x = false.
Proof.
  intros l x H. unfold hashes in H. apply in_concat in H as (y & H1 & H2). apply in_map_iff in H1 as (n & <- & _). destruct H2 as [<-|H2]; [reflexivity|].
  pose proof (str_of_nat_digits n) as D. rewrite forallb_forall in D. specialize (D x H2). unfold isdigit in D. destruct (isspace x) eqn:E; [|reflexivity].
  exfalso. apply andb_prop in D as [D1 D2]. apply N.leb_le in D1, D2. revert E. assert (Q : (x = 48 \/ x = 49 \/ x = 50 \/ x = 51 \/ x = 52 \/ x = 53 \/ x = 54 \/ x = 55 \/ x = 56 \/ x = 57)%N) by lia.
  destruct Q as [->|[->|[->|[->|[->|[->|[->|[->|[->| ->]]]]]]]]]; discriminate.
Qed.
Lemma strip_nospace : forall s, (forall x, In x s -> isspace x = false) -> strip s = s.
Proof.
  intros s H. destruct s as [|x s]; [reflexivity|]. destruct (rev s) as [|y q] eqn:E.
  - apply (f_equal (@rev ch)) in E. rewrite rev_involutive in E. cbn in E. subst s. unfold strip. rewrite lstrip_id by (apply H; left; reflexivity). unfold rstrip. cbn [rev List.app]. rewrite lstrip_id by (apply H; left; reflexivity). reflexivity.
  - assert (Es : s = rev q ++ [y]) by (rewrite <- (rev_involutive s), E; reflexivity). rewrite Es. apply strip_id2; apply H; [left; reflexivity|]. right. rewrite Es. apply in_app_iff. right. left. reflexivity.
Qed.
Theorem def_definition : forall name k body rest, word name -> good_body body ->
  handle_definition (def_text name k body ++ rest) = (Some (TDef name body k (def_re name k) (2 * k) false), length (def_text name k body)).
Proof.
  intros name k body rest W B. set (t := def_text name k body ++ rest). set (H := hashes (seq 1 k)).
  assert (Et : t = lit "\def" ++ [c_bs] ++ name ++ H ++ c_lb :: body ++ [c_rb] ++ rest) by (unfold t, def_text; rewrite <- !app_assoc; reflexivity).
  unfold handle_definition.
  replace (re_match_at P_newcommand t 0) with (@None mobj) by (rewrite Et; reflexivity).
  replace (re_match_at P_let t 0) with (@None mobj) by (rewrite Et; reflexivity).
  replace (re_match_at P_declarerobust t 0) with (@None mobj) by (rewrite Et; reflexivity).
  replace (re_match_at P_declaremathop t 0) with (@None mobj) by (rewrite Et; reflexivity).
  set (n2 := 5 + length name). set (n3 := n2 + length H).
  assert (M : re_match_at P_def t 0 = Some {| m_start := 0; m_end := S n3; m_caps := [(2, (n2, S n3)); (3, (n2, n3)); (1, (5, n2))] |}).
  { apply fm_match. unfold P_def, rseq. assert (E0 : skipn 0 t = [c_bs] ++ lit "def" ++ [c_bs] ++ name ++ H ++ c_lb :: body ++ [c_rb] ++ rest) by (rewrite Et; reflexivity).
    eapply fm_seq. { unfold ropt. apply fm_alt_right; [|apply fm_eps]. rewrite rm_rstr, E0. reflexivity. }
    eapply fm_seq; [apply (fm_is_ch c_bs t 0 [] _ E0)|]. apply skipn_more1 in E0.
    eapply fm_seq. { unfold ropt. apply fm_alt_right; [|apply fm_eps]. apply rm_chr_none. rewrite E0. reflexivity. }
    eapply fm_seq; [apply (fm_rstr (lit "def") t 1 [] _ E0)|]. apply (skipn_more t 1 (lit "def")) in E0. change (1 + length (lit "def")) with 4 in *.
    eapply fm_seq; [apply (fm_star isspace t 4 [] [] _ E0); reflexivity|]. change (4 + length (@nil ch)) with 4.
    eapply fm_seq; [apply (fm_is_ch c_bs t 4 [] _ E0)|]. apply skipn_more1 in E0.
    eapply fm_seq. { apply fm_grp. apply (fm_plus _ t 5 [] name _ E0 (word_nonempty _ W)).
      - apply forallb_forall. intros x Hx. apply word_forallb in W. rewrite forallb_forall in W. destruct (name_ch_nospace x (W x Hx)) as (-> & -> & _ & Hh). rewrite Hh. reflexivity.
      - unfold H. destruct k as [|k]; reflexivity. }
    apply skipn_more in E0. fold n2 in E0 |- *. apply fm_grp.
    eapply fm_seq; [apply fm_grp; apply (fm_star_steps def_item t n2 n3 (def_items (seq 1 k) t n2 _ E0))|]. apply skipn_more in E0. fold n3 in E0.
    eapply fm_seq; [apply (fm_star isspace t n3 _ [] _ E0); reflexivity|]. change (length (@nil ch)) with 0. rewrite Nat.add_0_r. apply (fm_is_ch c_lb t n3 _ _ E0). }
  rewrite M. unfold handle_def. cbn [m_end].
  set (pre := lit "\def" ++ [c_bs] ++ name ++ H). assert (Lp : n3 = length pre) by (unfold pre; rewrite !app_length; unfold n3, n2; cbn; lia). rewrite Lp.
  rewrite (nested_arg t pre body rest B) by (rewrite Et; unfold pre; rewrite <- !app_assoc; reflexivity).
  cbn [m_span m_caps cap_get Nat.eqb]. assert (F5 : firstn 5 t = lit "\def\") by (rewrite Et; reflexivity). unfold m_span. cbn [m_caps cap_get Nat.eqb]. rewrite F5. change (contains (lit "\edef") (lit "\def\")) with false.
  assert (G1 : grp t 1 {| m_start := 0; m_end := S (length pre); m_caps := [(2, (n2, S (length pre))); (3, (n2, length pre)); (1, (5, n2))] |} = name).
  { unfold grp, m_group. cbn [m_caps cap_get Nat.eqb option_map]. apply (slice_of t (lit "\def\") name (H ++ c_lb :: body ++ [c_rb] ++ rest)). rewrite Et. reflexivity. }
  assert (G3 : grp t 3 {| m_start := 0; m_end := S (length pre); m_caps := [(2, (n2, S (length pre))); (3, (n2, length pre)); (1, (5, n2))] |} = H).
  { unfold grp, m_group. cbn [m_caps cap_get Nat.eqb option_map]. rewrite <- Lp. unfold n3. replace n2 with (length (lit "\def\" ++ name)) by (rewrite app_length; reflexivity). apply (slice_of t _ H (c_lb :: body ++ [c_rb] ++ rest)). rewrite Et, <- !app_assoc. reflexivity. }
  rewrite G1, G3. assert (U : unslash name = name).
  { destruct name as [|x name]; [reflexivity|]. cbn [unslash]. apply word_forallb in W. cbn [forallb] in W. apply andb_prop in W as [W _]. apply name_ch_nospace in W as (_ & _ & Q & _). rewrite Q. reflexivity. }
  rewrite U. unfold H. rewrite (strip_nospace _ (hashes_nospace _)). rewrite <- hashes_param, (def_pattern_ok name k W). f_equal. unfold def_text, pre. rewrite !app_length. fold H. rewrite (hashes_param k). fold H. cbn [length]. lia.
Qed.

(** * Calling it *)
Lemma fm_parts : forall l ns g (t : str) i c r, length ns = length l -> skipn i t = call_text l ++ r -> (forall p, In p l -> call_ok p) ->
  exists cs, first_match (rseq (parts g ns)) t i c (i + length (call_text l)) (cs ++ c) /\
    (forall n, cap_get n cs <> None -> g <= n) /\
    concat (map (fun n => match option_map (fun '(a, b) => slice a b t) (cap_get n cs) with Some s => [s] | None => [] end) (seq g (2 * length l))) = map snd l.
Proof.
  induction l as [|p l IH]; intros ns g t i c r Hn E Ho.
  - destruct ns; [|discriminate Hn]. exists []. cbn [parts rseq rstr call_text map concat length]. rewrite Nat.add_0_r. split; [apply fm_eps|]. split; [intros n H; cbn in H; congruence|reflexivity].
  - destruct ns as [|z ns]; [discriminate Hn|]. cbn [length] in Hn. injection Hn as Hn.
    assert (Ec : call_text (p :: l) = call_part p ++ call_text l) by reflexivity. rewrite Ec in *. rewrite <- app_assoc in E.
    set (cap := (g, (S (i + length (fst p)), S (i + length (fst p)) + length (snd p)))).
    pose proof (fm_arg g t i c p _ E (Ho p (or_introl eq_refl))) as FA. fold cap in FA.
    destruct (IH ns (2 + g) t (i + length (call_part p)) (cap :: c) r Hn (skipn_more _ _ _ _ E) (fun q Hq => Ho q (or_intror Hq))) as (cs & F & Hc & Hv).
    exists (cs ++ [cap]). split; [|split].
    + cbn [parts rstr]. assert (R : rseq (REps :: args_part_pattern g :: parts (2 + g) ns) = RSeq REps (RSeq (args_part_pattern g) (rseq (parts (2 + g) ns)))) by (destruct ns; reflexivity). rewrite R.
      eapply fm_seq; [apply fm_eps|]. eapply fm_seq; [exact FA|]. rewrite app_length, Nat.add_assoc, <- app_assoc. exact F.
    + intros n Hn'. destruct (Nat.eq_dec n g) as [->|Ne]; [lia|]. assert (Q : cap_get n (cs ++ [cap]) = cap_get n cs).
      { clear -Ne. induction cs as [|[k v] cs IH]; cbn [List.app cap_get]; [unfold cap; cbn; replace (Nat.eqb g n) with false by (symmetry; apply Nat.eqb_neq; congruence); reflexivity|]. destruct (Nat.eqb k n); [reflexivity|exact IH]. }
      rewrite Q in Hn'. specialize (Hc n Hn'). lia.
    + assert (Q : forall n, cap_get n (cs ++ [cap]) = match cap_get n cs with Some v => Some v | None => if Nat.eqb g n then Some (snd cap) else None end).
      { intros n. clear. induction cs as [|[k v] cs IH]; cbn [List.app cap_get]; [unfold cap; cbn; reflexivity|]. destruct (Nat.eqb k n); [reflexivity|exact IH]. }
      assert (N : forall n, n < 2 + g -> cap_get n cs = None). { intros n Hn'. destruct (cap_get n cs) eqn:En; [|reflexivity]. assert (2 + g <= n) by (apply Hc; congruence). lia. }
      replace (2 * length (p :: l)) with (S (S (2 * length l))) by (cbn [length]; lia). cbn [seq map concat snd]. rewrite !Q, (N g), (N (S g)), Nat.eqb_refl by lia.
      replace (Nat.eqb g (S g)) with false by (symmetry; apply Nat.eqb_neq; lia). cbn [option_map snd cap List.app].
      assert (Sl : slice (S (i + length (fst p))) (S (i + length (fst p)) + length (snd p)) t = snd p).
      { unfold call_part in E. rewrite <- !app_assoc in E. apply skipn_more in E. apply skipn_more1 in E. unfold slice. rewrite E. replace (S (i + length (fst p)) + length (snd p) - S (i + length (fst p))) with (length (snd p)) by lia. apply firstn_app_exact. reflexivity. }
      unfold cap. cbn [snd]. rewrite Sl. f_equal. change (S (S g)) with (2 + g). rewrite <- Hv. f_equal. apply map_ext_in. intros n Hin. apply List.in_seq in Hin. rewrite Q. replace (Nat.eqb g n) with false by (symmetry; apply Nat.eqb_neq; lia). destruct (cap_get n cs); reflexivity.
Qed.
Lemma def_match : forall name l r, word name -> (forall p, In p l -> call_ok p) -> (l = [] -> word_end r) ->
  let t := [c_bs] ++ name ++ call_text l ++ r in
  exists cs, re_match_at (def_re name (length l)) t 0 = Some {| m_start := 0; m_end := S (length name) + length (call_text l); m_caps := cs |} /\
    concat (map (fun n => match m_group t n {| m_start := 0; m_end := S (length name) + length (call_text l); m_caps := cs |} with Some s => [s] | None => [] end) (seq 1 (2 * length l))) = map snd l.
Proof.
  intros name l r W Ho Hr t. destruct l as [|p l].
  - exists []. split; [|reflexivity]. cbn [length def_re call_text map concat]. rewrite Nat.add_0_r. rewrite <- usage_word by exact W. destruct (usage_at name t 0 W ltac:(lia)) as [Y _]. rewrite (Y r); [reflexivity|]. split; [reflexivity|apply Hr; reflexivity].
  - assert (E0 : skipn 0 t = ([c_bs] ++ name) ++ call_text (p :: l) ++ r) by reflexivity. pose proof (skipn_more _ _ _ _ E0) as E1. cbn [Nat.add] in E1. change (length ([c_bs] ++ name)) with (S (length name)) in E1.
    destruct (fm_parts (p :: l) (seq 1 (length (p :: l))) 1 t (S (length name)) [] r (seq_length _ _) E1 Ho) as (cs & F & _ & Hv). exists cs. rewrite app_nil_r in F. split; [|exact Hv].
    apply fm_match. unfold def_re. cbn [length].
    assert (R : forall a b x, rseq (a :: b :: parts 1 (seq 1 (S x))) = RSeq a (RSeq b (rseq (parts 1 (seq 1 (S x)))))) by reflexivity. rewrite R.
    eapply fm_seq; [apply (fm_rstr _ t 0 [] _ E0)|]. change (0 + length ([c_bs] ++ name)) with (S (length name)).
    eapply fm_seq; [|exact F]. unfold first_match. rewrite suffix_yes; [eexists; reflexivity|]. rewrite E1.
    assert (Ec : call_text (p :: l) = fst p ++ c_lb :: snd p ++ [c_rb] ++ call_text l) by (unfold call_text; cbn [map concat]; unfold call_part at 1; rewrite <- !app_assoc; reflexivity). rewrite Ec, <- !app_assoc. cbn [List.app]. destruct (Ho p (or_introl eq_refl)) as [Hb _]. apply sp_word_end; [exact Hb|reflexivity].
Qed.
Definition acceptable_def (name body : str) (k : nat) : Prop :=
  word name /\ good_body body /\ ~ In name whitelist /\ (k = 0 -> forall r, strip body <> lit "\@ifstar" ++ r).
Section DefCall.
Variables (isalpha isalnum : ch -> bool) (ifs : str -> option (str * str)) (ew : str -> bool).
Notation define := (parser_define isalpha isalnum ifs ew).
Definition def_ent (name body : str) (k : nat) : centry := {| ce_pat := def_re name k; ce_math := false; ce_kind := KDef (GPlain body) (2 * k) |}.
Lemma def_define : forall st name k body rest, acceptable_def name body k ->
  define st (def_text name k body ++ rest) = Some ({| c_cmds := cset name (def_ent name body k) (c_cmds st); c_lets := c_lets st |}, length (def_text name k body)).
Proof.
  intros st name k body rest (W & B & Hw & Hi). unfold parser_define. rewrite (def_definition name k body rest W B).
  assert (R : forall st, register_command isalpha isalnum ifs ew st (TDef name body k (def_re name k) (2 * k) false) = Some {| c_cmds := cset name (def_ent name body k) (c_cmds st); c_lets := c_lets st |}).
  { intros st0. unfold register_command. replace (nilb name) with false by (symmetry; apply word_nonempty in W; destruct name; [congruence|reflexivity]).
    replace (whitelisted name) with false by (symmetry; apply not_true_iff_false; intros E; apply existsb_in in E; contradiction). cbn [orb].
    destruct k as [|k]; [|reflexivity]. unfold conditionals. replace (startswith (strip body) (lit "\@ifstar")) with false; [reflexivity|]. symmetry. apply not_true_iff_false. intros E. apply startswith_spec in E as (r & E). apply (Hi eq_refl r E). }
  rewrite !R. cbn [c_cmds c_lets]. rewrite cset_cset. reflexivity.
Qed.
Lemma handle_def_entry : forall d name e t m r, (forall k e', In (k, e') d -> word k /\ ce_pat e' = usage_pattern k) -> word name -> use_at name t r -> ce_math e = false ->
  re_match_at (ce_pat e) t 0 = Some m ->
  handle_go isalpha (cset name e d) t = let '(out, pos) := run_handler isalpha (ce_kind e) t m false in if str_eqb (m_group0 t m) out then Some ([], m_end m) else Some (out, pos).
Proof.
  intros d name e t m r P W U Em M. induction d as [|[k e'] d IH]; cbn [cset handle_go]; [rewrite Em, M; reflexivity|].
  destruct (str_eqb name k) eqn:E; cbn [handle_go]; [rewrite Em, M; reflexivity|]. destruct (P k e' (or_introl eq_refl)) as [Wk Pk]. specialize (IH (fun a b H => P a b (or_intror H))).
  assert (Nm : re_match_at (ce_pat e') t 0 = None).
  { rewrite Pk. apply (usage_at k t 0 Wk); [lia|]. intros r' U'. change (skipn 0 t) with t in U'. destruct (use_at_fun name k _ _ _ W Wk U U') as [-> _]. rewrite str_eqb_refl in E. discriminate E. }
  destruct (ce_math e'); [exact IH|]. rewrite Nm. exact IH.
Qed.
Lemma subst_nil : forall body, (forall ps, reads_as body ps -> no_zero ps) -> (forall ps, reads_as body ps -> params ps = []) -> substitute_args isalpha body (map Some []) false = body.
Proof. intros body Hz Hp. destruct (reads_exists body) as (ps & R). destruct (substitute_args_spec isalpha body (map Some []) false ps R (Hz ps R)) as [A _]. apply A, Hp, R. Qed.
Theorem def_call : forall h st name k body rest l r, history isalpha isalnum ifs ew h st -> acceptable_def name body k ->
  (forall ps, reads_as body ps -> no_zero ps) -> (k = 0 -> forall ps, reads_as body ps -> params ps = []) ->
  exists st1, define st (def_text name k body ++ rest) = Some (st1, length (def_text name k body)) /\
    (length l = k -> (forall w a, In (w, a) l -> blank w /\ shallow a) -> (k = 0 -> word_end r) ->
     exists out, (k = 0 -> out = body) /\ (k <> 0 -> substituted isalpha body (map snd l) out) /\
       (out <> [c_bs] ++ name ++ call_text l -> handle_command isalpha st1 ([c_bs] ++ name ++ call_text l ++ r) = Some (out, S (length name) + length (call_text l)))).
Proof.
  intros h st name k body rest l r Hh A Hz Hp. eexists. split; [apply def_define; exact A|]. intros Hl Ho Hr. destruct A as (W & B & Hw & Hi). destruct (history_inv isalpha isalnum ifs ew h st Hh) as (L & Nd & P & G & F).
  set (t := [c_bs] ++ name ++ call_text l ++ r).
  destruct (def_match name l r W) as (cs & M & V). { intros [w a] Hin. apply (Ho w a Hin). } { intros ->. apply Hr. symmetry. exact Hl. }
  fold t in M, V. set (m := {| m_start := 0; m_end := S (length name) + length (call_text l); m_caps := cs |}) in *. rewrite Hl in M, V.
  assert (U : use_at name t (call_text l ++ r)).
  { split; [reflexivity|]. destruct l as [|[w a] l]; [apply Hr; symmetry; exact Hl|]. destruct (Ho w a (or_introl eq_refl)) as [Hb _].
    assert (Ec : call_text ((w, a) :: l) = w ++ c_lb :: a ++ [c_rb] ++ call_text l) by (unfold call_text; cbn [map concat]; unfold call_part at 1; cbn [fst snd]; rewrite <- !app_assoc; reflexivity). rewrite Ec, <- !app_assoc. apply sp_word_end; [exact Hb|reflexivity]. }
  pose proof (handle_def_entry (c_cmds st) name (def_ent name body k) t m _ P W U eq_refl M) as HD. cbn [def_ent ce_kind run_handler get_definition] in HD. rewrite V in HD.
  exists (substitute_args isalpha body (map Some (map snd l)) false). split; [|split].
  - intros K. assert (E : map snd l = []) by (clear -Hl K; destruct l; [reflexivity|cbn in Hl; lia]). rewrite E. apply subst_nil; [exact Hz|exact (Hp K)].
  - intros Hk. apply subst_ok; [|exact Hz]. clear -Hl Hk. destruct l; [cbn in Hl; congruence|discriminate].
  - intros Ne. unfold handle_command, all_commands. cbn [c_cmds c_lets]. rewrite L. cbn [fold_left].
    assert (G0 : m_group0 t m = [c_bs] ++ name ++ call_text l).
    { unfold m. replace (S (length name) + length (call_text l)) with (length ([c_bs] ++ name ++ call_text l)) by (rewrite !app_length; cbn [length]; lia). apply (group0_at t ([c_bs] ++ name ++ call_text l) r cs). unfold t. rewrite <- !app_assoc. reflexivity. }
    assert (Q : str_eqb (m_group0 t m) (substitute_args isalpha body (map Some (map snd l)) false) = false).
    { apply not_true_iff_false. intros Q. apply str_eqb_spec in Q. apply Ne. rewrite <- Q. exact G0. }
    rewrite Q in HD. exact HD.
Qed.
End DefCall.
