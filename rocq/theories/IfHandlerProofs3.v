(** C83, C84: what the handler reports for a conditional. *)
From Coq Require Import List NArith PeanoNat Lia Bool String.
From Verif Require Import PyStr Regex RegexLemmas RegexHead Json TexUtilsModel DelimSpec DelimFinal CommandModel CommandSpec CommandProofs CommandProofs2 CommandProofs3 CommandProofs7 EqProofs EnvHandlerProofs Placeholder IfModel IfSpec IfProofs IfProofs2 IfProofs3 IfHandlerModel IfHandlerSpec IfHandlerProofs IfHandlerProofs2.
Import ListNotations. Notation length := List.length. Notation concat := List.concat. Open Scope list_scope.

Lemma word_prefix : forall (p name rest r : str), Forall word_char p -> (match rest with x :: _ => name_ch x | [] => false end) = false -> name ++ rest = p ++ r -> exists r', name = p ++ r'.
Proof.
  induction p as [|a p IH]; intros name rest r W R E; [exists name; reflexivity|]. inversion W as [|? ? Wa Wp]; subst.
  destruct name as [|b name]; cbn [List.app] in E.
  - destruct rest as [|x rest]; [discriminate|]. injection E as -> _. apply name_ch_spec in Wa. congruence.
  - injection E as -> E. destruct (IH name rest r Wp R E) as (r' & ->). exists r'. reflexivity.
Qed.
Lemma stop_head : forall x (q : str), isspace x = true \/ x = c_bs -> (match x :: q with y :: _ => name_ch y | [] => false end) = false.
Proof. intros x q [H| ->]; [apply space_not_name; exact H|reflexivity]. Qed.
Lemma rest_head : forall names name rest, heading names name rest -> (match rest with x :: _ => name_ch x | [] => false end) = false.
Proof. intros names name rest [I W E H|x q W L -> Hx R N]; [apply word_end_head; exact E|exact (stop_head x q Hx)]. Qed.
Lemma heading_word : forall names name rest, heading names name rest -> word name.
Proof. intros names name rest [I W E H|x q W L _ Hx R N]; exact W. Qed.
Lemma sw_if : forall n s, startswith (lit "\if" ++ s) (lit "\if" ++ n) = startswith s n.
Proof. reflexivity. Qed.
Lemma not_prefix : forall p name rest, Forall word_char p -> (match rest with x :: _ => name_ch x | [] => false end) = false -> (forall r, name <> p ++ r) -> startswith (name ++ rest) p = false.
Proof.
  intros p name rest W R N. destruct (startswith (name ++ rest) p) eqn:E; [|reflexivity]. apply startswith_spec in E as (r & E). destruct (word_prefix p name rest r W R E) as (r' & ->). exfalso. apply (N r'). reflexivity.
Qed.
Lemma wordlit_ok : forall p : str, forallb name_ch p = true -> Forall word_char p.
Proof. intros p H. apply Forall_forall. intros x I. apply name_ch_spec. rewrite forallb_forall in H. auto. Qed.
Ltac wordlit := apply wordlit_ok; vm_compute; reflexivity.

(** ** default patterns do not match the heading of another conditional *)
Lemma general_none : forall name x q t i c, skipn i t = lit "\if" ++ name ++ x :: q -> word name -> isspace x = true \/ x = c_bs -> (forall p r, In p reserved -> name <> p ++ r) ->
  Forall (fun d => rm (if_re d) t i c = [] /\ rm (if_raw d) t i c = []) (removelast default_ifs).
Proof.
  intros name x q t i c E W Hx R. pose proof (stop_head x q Hx) as Hh.
  assert (P : forall p, In p reserved -> Forall word_char p -> startswith (skipn i t) (lit "\if" ++ p) = false).
  { intros p I Wp. rewrite E, sw_if. apply not_prefix; [exact Wp|exact Hh|]. intros r. apply R. exact I. }
  assert (Pat : forall s, startswith (skipn i t) (lit "\@if" ++ s) = false) by (intros; rewrite E; reflexivity).
  assert (B1 : rm (braced "\ifthenelse") t i c = []) by (apply braced_none; apply (P (lit "thenelse")); [vm_compute; tauto|wordlit]).
  assert (B2 : rm ifx_pattern t i c = []) by (unfold ifx_pattern; cbn [rseq]; apply rm_seq_none, rstr_none; apply (P (lit "x")); [vm_compute; tauto|wordlit]).
  assert (B3 : rm ifx_raw t i c = []) by (unfold ifx_raw; cbn [rseq]; apply rm_seq_none, rstr_none; apply (P (lit "x")); [vm_compute; tauto|wordlit]).
  assert (B4 : rm (rseq [re_lit "\if"; ropt (re_lit "un"); re_lit "defined"; rstar rspace; re_cwb]) t i c = []).
  { cbn [rseq]. rewrite (seq_one (re_lit "\if") _ t i c (i + 3) c) by (unfold re_lit; rewrite rm_rstr, E; reflexivity).
    pose proof (skipn_more t i (lit "\if") _ E) as E1. change (i + length (lit "\if")) with (i + 3) in E1. rewrite seq_opt. apply nil2.
    - destruct (startswith (name ++ x :: q) (lit "un")) eqn:U; [|apply rm_seq_none, rstr_none; rewrite E1; exact U].
      apply startswith_spec in U as (r & U). rewrite (seq_one (re_lit "un") _ t (i + 3) c (i + 3 + 2) c) by (unfold re_lit; rewrite rm_rstr, E1, U; reflexivity).
      apply rm_seq_none, rstr_none. rewrite U in E1. pose proof (skipn_more t _ (lit "un") _ E1) as E2. change (i + 3 + length (lit "un")) with (i + 3 + 2) in E2. rewrite E2.
      assert (Q : startswith (skipn i t) (lit "\if" ++ lit "undefined") = false) by (apply P; [vm_compute; tauto|wordlit]).
      rewrite E, sw_if, U in Q. exact Q.
    - apply rm_seq_none, rstr_none. rewrite E1. apply not_prefix; [wordlit|exact Hh|]. intros r. apply R. vm_compute. tauto. }
  assert (B5 : rm ifnum_pattern t i c = []) by (unfold ifnum_pattern; cbn [rseq]; apply rm_seq_none, rstr_none; apply (P (lit "num")); [vm_compute; tauto|wordlit]).
  assert (B6 : rm ifdim_pattern t i c = []) by (unfold ifdim_pattern; cbn [rseq]; apply rm_seq_none, rstr_none; apply (P (lit "dim")); [vm_compute; tauto|wordlit]).
  assert (B7 : rm ifcat_pattern t i c = []) by (unfold ifcat_pattern; cbn [rseq]; apply rm_seq_none, rstr_none; apply (P (lit "cat")); [vm_compute; tauto|wordlit]).
  assert (B8 : rm (rseq [re_lit "\ifcase"; re_default_if 1]) t i c = []) by (cbn [rseq]; apply rm_seq_none, rstr_none; apply (P (lit "case")); [vm_compute; tauto|wordlit]).
  assert (B9 : rm (braced "\IfFileExists") t i c = []) by (apply braced_none; rewrite E; reflexivity).
  assert (Bat : forall s : string, startswith (lit s) (lit "\@if") = true -> rm (braced s) t i c = []).
  { intros s Hs. apply braced_none. apply startswith_spec in Hs as (r & ->). apply Pat. }
  unfold default_ifs. cbn [removelast].
  repeat (apply Forall_cons; [cbn [if_re if_raw same]; first [split; assumption|split; apply Bat; reflexivity]|]). apply Forall_nil.
Qed.
Lemma newif_match : forall name rest t i c, skipn i t = lit "\if" ++ name ++ rest -> (match rest with x :: _ => name_ch x | [] => false end) = false ->
  rm (rseq [re_lit "\if"; rstr name; ropt (RAlt (re_lit "true") (re_lit "false"))]) t i c = [(i + 3 + length name, c)].
Proof.
  intros name rest t i c E R. cbn [rseq]. rewrite (seq_one (re_lit "\if") _ t i c (i + 3) c) by (unfold re_lit; rewrite rm_rstr, E; reflexivity).
  pose proof (skipn_more t i (lit "\if") _ E) as E1. change (i + length (lit "\if")) with (i + 3) in E1.
  rewrite (seq_one (rstr name) _ t (i + 3) c (i + 3 + length name) c) by (rewrite rm_rstr, E1, startswith_app; reflexivity).
  pose proof (skipn_more t _ _ _ E1) as E2. apply opt_none. apply rm_alt_none; apply rstr_none; rewrite E2; (destruct rest as [|x r]; [reflexivity|]).
  - change (startswith (x :: r) (lit "true")) with (N.eqb 116 x && startswith r (lit "rue")). destruct (N.eqb 116 x) eqn:Ex; [apply N.eqb_eq in Ex; subst; discriminate R|reflexivity].
  - change (startswith (x :: r) (lit "false")) with (N.eqb 102 x && startswith r (lit "alse")). destruct (N.eqb 102 x) eqn:Ex; [apply N.eqb_eq in Ex; subst; discriminate R|reflexivity].
Qed.
Lemma fm_one : forall r t i c j c', rm r t i c = [(j, c')] -> first_match r t i c j c'.
Proof. intros r t i c j c' H. exists []. exact H. Qed.
Lemma fm_ralt : forall (pre : list re) a t i c j c', (forall b, In b pre -> rm b t i c = []) -> first_match a t i c j c' -> first_match (ralt (pre ++ [a])) t i c j c'.
Proof.
  induction pre as [|b pre IH]; intros a t i c j c' H F; [exact F|]. cbn [List.app]. rewrite ralt_cons by (destruct pre; discriminate). apply fm_alt_right; [apply H; left; reflexivity|].
  apply IH; [|exact F]. intros d Hd. apply H. right. exact Hd.
Qed.
Lemma other_none : forall n name rest t i c, skipn i t = lit "\if" ++ name ++ rest -> (match rest with x :: _ => name_ch x | [] => false end) = false -> word n -> (forall r, name <> n ++ r) ->
  rm (rseq [re_lit "\if"; rstr n; ropt (RAlt (re_lit "true") (re_lit "false"))]) t i c = [].
Proof. intros n name rest t i c E R W N. apply newif_none. rewrite E, sw_if. apply not_prefix; [apply W|exact R|exact N]. Qed.
Lemma compiled_match : forall names name rest t i c, Forall word names -> heading names name rest -> skipn i t = lit "\if" ++ name ++ rest ->
  exists c', first_match (compiled (declared_ifs names)) t i c (i + 3 + length name) c'.
Proof.
  intros names name rest t i c Wn H E. pose proof (rest_head _ _ _ H) as R. unfold compiled.
  destruct H as [I W We N|x q W L -> Hx Rs N].
  - exists c. induction names as [|n names IH]; [destruct I|]. inversion Wn as [|? ? W1 W2]; subst. cbn [declared_ifs fold_right]. unfold process_newif at 1. cbn [map if_raw]. rewrite ralt_cons by apply declared_nonempty.
    destruct (list_eq_dec N.eq_dec n name) as [->|Ne].
    + apply fm_alt_left, fm_one. exact (newif_match name rest t i c E R).
    + destruct I as [I|I]; [congruence|]. apply fm_alt_right; [exact (other_none n name rest t i c E R W1 (fun r => N n r (or_introl eq_refl) Ne))|].
      apply IH; [exact W2|exact I|]. intros m r Im. apply N. right. exact Im.
  - assert (F : exists c', first_match (ralt (map if_raw default_ifs)) t i c (i + 3 + length name) c').
    { destruct (if_match name t i c x q E (proj1 W) L Hx) as (c' & F). exists c'. pose proof (general_none name x q t i c E W Hx Rs) as G.
      change (map if_raw default_ifs) with (map if_raw (removelast default_ifs) ++ [IF_PATTERN]). apply fm_ralt; [|exact F].
      intros b Ib. apply in_map_iff in Ib as (d & <- & Id). rewrite Forall_forall in G. apply (G d Id). }
    destruct F as (c' & F). exists c'. induction names as [|n names IH]; [exact F|]. inversion Wn as [|? ? W1 W2]; subst.
    cbn [declared_ifs fold_right]. unfold process_newif at 1. cbn [map if_raw]. rewrite ralt_cons by apply declared_nonempty.
    apply fm_alt_right; [exact (other_none n name (x :: q) t i c E R W1 (fun r => N n r (or_introl eq_refl)))|]. apply IH; [exact W2|]. intros m r Im. apply N. right. exact Im.
Qed.

(** ** Reading the items *)
Lemma search_skip : forall r t pos k, pos + k <= length t -> (forall j, j < k -> rm r t (pos + j) [] = []) -> re_search_from r t pos = re_search_from r t (pos + k).
Proof.
  intros r t pos k. revert pos. induction k as [|k IH]; intros pos L H; [rewrite Nat.add_0_r; reflexivity|].
  replace (pos + S k) with (S pos + k) by lia. rewrite <- IH; [|lia|intros j Hj; replace (S pos + j) with (pos + S j) by lia; apply H; lia].
  unfold re_search_from. replace (Nat.leb pos (length t)) with true by (symmetry; apply Nat.leb_le; lia). replace (Nat.leb (S pos) (length t)) with true by (symmetry; apply Nat.leb_le; lia).
  replace (length t - pos) with (S (length t - S pos)) by lia. cbn [re_search_go]. unfold re_match_at at 1. pose proof (H 0 ltac:(lia)) as H0. rewrite Nat.add_0_r in H0. rewrite H0. reflexivity.
Qed.
Lemma search_here : forall r t pos j c', pos <= length t -> first_match r t pos [] j c' -> re_search_from r t pos = Some {| m_start := pos; m_end := j; m_caps := c' |}.
Proof. intros r t pos j c' L F. apply (search_first r t pos pos); [lia|exact L|intros; lia|apply fm_match; exact F]. Qed.
Lemma search_end : forall r t, rm r t (length t) [] = [] -> re_search_from r t (length t) = None.
Proof. intros r t H. unfold re_search_from. rewrite Nat.leb_refl, Nat.sub_diag. cbn [re_search_go]. unfold re_match_at. rewrite H. reflexivity. Qed.
Definition span (m : option mobj) : option (nat * nat) := option_map (fun m => (m_start m, m_end m)) m.
Definition spot (o : option (nat * nat * option str)) : option (nat * nat) := option_map fst o.
(** a pattern that matches exactly the items of a kind *)
Section Reading.
Variables (names : list str) (P : re) (kind : item -> bool).
Hypothesis Hout : forall t i, (forall p r, In p commands_apart -> skipn i t <> p ++ r) -> rm P t i [] = [].
Hypothesis Hitem : forall i r t k, fits names (i :: r) -> is_txt i = false -> skipn k t = item_text i ++ render r ->
  if kind i then exists c', first_match P t k [] (k + length (item_text i)) c' else rm P t k [] = [].
Hypothesis Htxt : forall s, kind (Txt s) = false.
Lemma inner_free : forall i r (x : ch) (s : str), fits names (i :: r) -> is_txt i = false -> item_text i = x :: s -> forall y, In y s -> y <> c_bs.
Proof.
  intros i r x s F T E y Iy. inversion F as [|s0 r0 Q F'|name r0 H F'|r0 B F'|r0 B F']; subst; cbn [is_txt item_text] in *; try discriminate.
  - injection E as _ E. subst s. destruct Iy as [<-|[<-|Iy]]; [discriminate|discriminate|].
    pose proof (heading_word _ _ _ H) as [W _]. rewrite Forall_forall in W. intros ->. specialize (W _ Iy). destruct (word_ch _ W) as (_ & W2 & _). discriminate W2.
  - injection E as _ E. subst s. intros ->. vm_compute in Iy. destruct Iy as [Iy|[Iy|[]]]; discriminate.
  - injection E as _ E. subst s. intros ->. vm_compute in Iy. destruct Iy as [Iy|[Iy|[Iy|[Iy|[]]]]]; discriminate.
Qed.
Lemma apart_bs : forall p r x (u : str), In p commands_apart -> x :: u = p ++ r -> x = c_bs.
Proof. intros p r x u I E. unfold commands_apart in I. cbn [map] in I. repeat (destruct I as [<-|I]; [injection E as -> _; reflexivity|]). destruct I. Qed.
Lemma read_all : forall items (t pre : str), fits names items -> t = pre ++ render items -> span (re_search_from P t (length pre)) = spot (first_of kind items (length pre)).
Proof.
  induction items as [|i r IH]; intros t pre F E.
  - cbn [first_of spot option_map]. cbn [render map concat] in E. rewrite app_nil_r in E. subst t. rewrite search_end; [reflexivity|]. apply Hout. intros p q I Eq. rewrite skipn_all in Eq.
    unfold commands_apart in I. cbn [map] in I. repeat (destruct I as [<-|I]; [discriminate Eq|]). destruct I.
  - assert (E' : t = (pre ++ item_text i) ++ render r) by (rewrite E; unfold render; cbn [map concat]; rewrite <- app_assoc; reflexivity).
    assert (F' : fits names r) by (inversion F; assumption). specialize (IH t (pre ++ item_text i) F' E'). rewrite app_length in IH.
    assert (Sk : skipn (length pre) t = item_text i ++ render r) by (rewrite E', <- app_assoc, skipn_app, skipn_all, Nat.sub_diag; reflexivity).
    assert (L : length pre + length (item_text i) <= length t) by (rewrite E', !app_length; lia). assert (L0 : length pre <= length t) by (apply (Nat.le_trans _ (length pre + length (item_text i))); [apply Nat.le_add_r|exact L]).
    cbn [first_of]. destruct (is_txt i) eqn:T.
    + destruct i as [s| | | |]; try discriminate. rewrite Htxt. cbn [item_text] in *. rewrite (search_skip _ _ _ (length s) L); [exact IH|].
      intros j Hj. apply Hout. intros p q I Eq.
      assert (Sj : skipn (length pre + j) t = skipn j s ++ render r).
      { rewrite <- skipn_add, Sk, skipn_app. replace (j - length s) with 0 by lia. reflexivity. }
      inversion F as [|s0 r0 Q F0| | |]; subst s0 r0. apply (Q (firstn j s) (skipn j s) p q); [symmetry; apply firstn_skipn| |exact I|].
      { intros X. apply (f_equal (@List.length _)) in X. rewrite skipn_length in X. cbn in X. lia. }
      rewrite <- Sj. exact Eq.
    + pose proof (Hitem i r t (length pre) F T Sk) as Hi. destruct (kind i) eqn:K.
      * destruct Hi as (c' & Fm). rewrite (search_here _ _ _ _ _ L0 Fm). reflexivity.
      * rewrite (search_skip _ _ _ (length (item_text i)) L); [exact IH|]. intros j Hj. destruct j as [|j]; [rewrite Nat.add_0_r; exact Hi|].
        destruct (item_text i) as [|x s] eqn:Ei; [cbn in Hj; lia|]. cbn [List.length] in Hj.
        assert (Sj : skipn (length pre + S j) t = skipn j s ++ render r).
        { rewrite <- skipn_add, Sk. cbn [List.app skipn]. rewrite skipn_app. replace (j - length s) with 0 by lia. reflexivity. }
        apply Hout. intros p q I Eq. rewrite Sj in Eq. destruct (skipn j s) as [|y u] eqn:Ej; [apply (f_equal (@List.length _)) in Ej; rewrite skipn_length in Ej; cbn in Ej; lia|].
        cbn [List.app] in Eq. apply apart_bs in Eq; [|exact I]. apply (inner_free i r x s F T Ei y); [|exact Eq].
        rewrite <- (firstn_skipn j s), Ej. apply in_or_app. right. left. reflexivity.
Qed.
End Reading.
