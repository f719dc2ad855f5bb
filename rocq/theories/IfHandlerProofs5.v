(** C83, C84: the heading, and the whole conditional. *)
From Coq Require Import List NArith PeanoNat Lia Bool String.
From Verif Require Import PyStr Regex RegexLemmas RegexHead Json TexUtilsModel TextModel DelimSpec DelimFinal CommandModel CommandSpec CommandProofs CommandProofs2 RegexLocal EnvHandlerProofs Placeholder IfModel IfSpec IfProofs IfProofs2 IfProofs3 IfHandlerModel IfHandlerSpec IfHandlerProofs IfHandlerProofs2 IfHandlerProofs3 IfHandlerProofs4.
Import ListNotations. Notation length := List.length. Notation concat := List.concat. Open Scope list_scope.

Lemma filter_id : forall (f : ch -> bool) s, (forall x, In x s -> f x = true) -> filter f s = s.
Proof. induction s as [|x s IH]; intros H; [reflexivity|]. cbn [filter]. rewrite (H x (or_introl eq_refl)), IH; [reflexivity|]. intros y I. apply H. right. exact I. Qed.
Lemma word_avoid : forall name x, Forall word_char name -> ~ word_char x -> ~ In x name.
Proof. intros name x W N I. rewrite Forall_forall in W. exact (N (W x I)). Qed.
Lemma bs_no : ~ word_char c_bs.
Proof. intros H. apply name_ch_spec in H. discriminate H. Qed.
Lemma sp_no : ~ word_char c_sp.
Proof. intros H. apply name_ch_spec in H. discriminate H. Qed.
Lemma lb_no : ~ word_char c_lb.
Proof. intros H. apply name_ch_spec in H. discriminate H. Qed.
Lemma rb_no : ~ word_char c_rb.
Proof. intros H. apply name_ch_spec in H. discriminate H. Qed.
Lemma keep_word : forall name x, Forall word_char name -> ~ word_char x -> replace [x] [] name = name.
Proof.
  intros name x W N. rewrite replace_filter. apply filter_id. intros y I. destruct (N.eqb y x) eqn:E; [|reflexivity]. apply N.eqb_eq in E. subst y. exfalso. exact (word_avoid _ _ W N I).
Qed.
Lemma no_bs_starts : forall (name p : str), ~ In c_bs name -> forall n, n < length name -> startswith (skipn n name ++ []) (c_bs :: p) = false.
Proof.
  intros name p N n L. rewrite app_nil_r. destruct (skipn n name) as [|y u] eqn:E; [reflexivity|]. cbn [startswith]. destruct (N.eqb c_bs y) eqn:Ey; [|reflexivity]. apply N.eqb_eq in Ey. subst y. exfalso. apply N.
  rewrite <- (firstn_skipn n name), E. apply in_or_app. right. left. reflexivity.
Qed.
Lemma no_find : forall (name p : str), ~ In c_bs name -> find_sub (c_bs :: p) name = None.
Proof. intros name p N. rewrite <- (app_nil_r name). rewrite find_miss by (apply no_bs_starts; exact N). reflexivity. Qed.
Lemma no_replace : forall (name p : str), ~ In c_bs name -> replace (c_bs :: p) [] name = name.
Proof. intros name p N. rewrite <- (app_nil_r name) at 1. rewrite replace_miss by (apply no_bs_starts; exact N). unfold replace. cbn. apply app_nil_r. Qed.

(** [condition] as computed by the code from the matched text *)
Lemma head_ok : forall csname (name rest kind : str) cp, word name -> plain_name name -> kind = name \/ kind = lit "if" ->
  if_head csname (lit "\if" ++ name ++ rest) {| m_start := 0; m_end := 3 + length name; m_caps := cp |} kind = (3 + length name, name).
Proof.
  intros csname name rest kind cp [W Wl] P K. unfold if_head. unfold m_group0, slice. cbn [m_start m_end].
  assert (G : firstn (3 + length name - 0) (skipn 0 (lit "\if" ++ name ++ rest)) = lit "\if" ++ name).
  { cbn [skipn]. rewrite Nat.sub_0_r, app_assoc. rewrite firstn_app_exact; [reflexivity|]. rewrite app_length. reflexivity. }
  unfold str in *. rewrite G. clear G.
  assert (Nb : ~ In c_bs name) by exact (word_avoid _ _ W bs_no).
  assert (F : find_sub (lit "\csname") (lit "\if" ++ name) = None).
  { change (lit "\csname") with (c_bs :: lit "csname"). change (lit "\if" ++ name) with (c_bs :: lit "if" ++ name). cbn [find_sub]. rewrite (no_find (lit "if" ++ name)); [reflexivity|].
    intros I. apply in_app_or in I as [I|I]; [vm_compute in I; intuition discriminate|exact (Nb I)]. }
  rewrite F.
  assert (R : replace [c_sp] [] (lit "\if" ++ name) = lit "\if" ++ name).
  { rewrite replace_filter. apply filter_id. intros y I. destruct (N.eqb y c_sp) eqn:E; [|reflexivity]. apply N.eqb_eq in E. subst y. exfalso. apply in_app_or in I as [I|I]; [vm_compute in I; intuition discriminate|exact (word_avoid _ _ W sp_no I)]. }
  unfold str in *. rewrite R. f_equal. destruct K as [-> | ->].
  - rewrite str_eqb_refl. reflexivity.
  - assert (E1 : str_eqb (lit "\if" ++ name) (lit "\if" ++ lit "if") = false).
    { destruct (str_eqb _ _) eqn:E; [|reflexivity]. apply str_eqb_spec in E. apply app_inv_head in E. exfalso. apply (proj1 (P [])). rewrite E. reflexivity. }
    rewrite E1. assert (E2 : str_eqb (lit "\if" ++ name) (lit "\@if" ++ lit "if") = false) by reflexivity. rewrite E2. cbn [orb].
    change ([c_bs] ++ lit "if") with (lit "\if"). rewrite (replace_hit (lit "\if") [] name) by discriminate. cbn [List.app].
    change (lit "\if") with (c_bs :: lit "if"). rewrite (no_replace name (lit "if") Nb). reflexivity.
Qed.
Lemma kind_plain : forall csname all content m (n : str), plain_name n -> n <> lit "if" ->
  (if str_eqb n (lit "ifthenelse") then handle_ifthenelse content m
   else if str_eqb n (lit "@ifclassloaded") || str_eqb n (lit "@ifpackageloaded") || str_eqb n (lit "@ifundefined") then handle_atif content m n
   else if str_eqb n (lit "@ifstar") then handle_ifstar content m else handle_general csname all content m n) = handle_general csname all content m n.
Proof.
  intros csname all content m n P Ni.
  assert (H : forall s, (exists r, s = lit "if" ++ r) \/ (exists r, s = lit "@if" ++ r) -> str_eqb n s = false).
  { intros s Hs. destruct (str_eqb n s) eqn:E; [|reflexivity]. apply str_eqb_spec in E. subst s. exfalso. destruct Hs as [(r & E)|(r & E)]; [exact (proj1 (P r) E)|exact (proj2 (P r) E)]. }
  rewrite (H (lit "ifthenelse")) by (left; exists (lit "thenelse"); reflexivity).
  rewrite (H (lit "@ifclassloaded")) by (right; exists (lit "classloaded"); reflexivity).
  rewrite (H (lit "@ifpackageloaded")) by (right; exists (lit "packageloaded"); reflexivity).
  rewrite (H (lit "@ifundefined")) by (right; exists (lit "undefined"); reflexivity).
  rewrite (H (lit "@ifstar")) by (right; exists (lit "star"); reflexivity). reflexivity.
Qed.
Lemma no_match0 : forall r t, rm r t 0 [] = [] -> re_match_at r t 0 = None.
Proof. intros r t H. unfold re_match_at. rewrite H. reflexivity. Qed.
Lemma try_cons : forall csname all d l content, re_match_at (if_re d) content 0 = None -> try_ifs csname all (d :: l) content = try_ifs csname all l content.
Proof. intros csname all d l content H. cbn [try_ifs]. rewrite H. reflexivity. Qed.
Lemma try_skip : forall csname all l l' content, Forall (fun d => re_match_at (if_re d) content 0 = None) l -> try_ifs csname all (l ++ l') content = try_ifs csname all l' content.
Proof. induction l as [|d l IH]; intros l' content F; [reflexivity|]. inversion F as [|? ? F1 F2]; subst. cbn [List.app]. rewrite try_cons by exact F1. apply IH. exact F2. Qed.
Lemma try_head : forall csname all names name rest, Forall word names -> heading names name rest -> plain_name name ->
  exists kind cp, rule names name kind /\ try_ifs csname all (declared_ifs names) (lit "\if" ++ name ++ rest) =
    handle_general csname all (lit "\if" ++ name ++ rest) {| m_start := 0; m_end := 3 + length name; m_caps := cp |} kind.
Proof.
  intros csname all names name rest Wn H P. pose proof (rest_head _ _ _ H) as R. set (t := lit "\if" ++ name ++ rest).
  assert (E : skipn 0 t = lit "\if" ++ name ++ rest) by reflexivity. clearbody t.
  destruct H as [I W We N|x q W L -> Hx Rs N].
  - exists name, []. split; [apply ru_declared; exact I|].
    induction names as [|n names IH]; [destruct I|]. inversion Wn as [|? ? W1 W2]; subst. cbn [declared_ifs fold_right]. unfold process_newif at 1.
    destruct (list_eq_dec N.eq_dec n name) as [->|Ne].
    + cbn [try_ifs if_re if_name]. rewrite (fm_match _ t 0 (0 + 3 + length name) [] (fm_one _ _ _ _ _ _ (newif_match name rest t 0 [] E R))).
      cbv zeta. rewrite kind_plain; [reflexivity|exact P|]. intros ->. exact (proj1 (P []) eq_refl).
    + destruct I as [I|I]; [congruence|]. rewrite try_cons; [|apply no_match0; exact (other_none n name rest t 0 [] E R W1 (fun r => N n r (or_introl eq_refl) Ne))].
      apply IH; [exact W2|exact I|]. intros m r Im. apply N. right. exact Im.
  - destruct (if_match name t 0 [] x q E (proj1 W) L Hx) as (c' & F). exists (lit "if"), c'. split; [apply ru_general; intros I; apply (N name [] I); rewrite app_nil_r; reflexivity|].
    assert (D : try_ifs csname all default_ifs t = handle_general csname all t {| m_start := 0; m_end := 3 + length name; m_caps := c' |} (lit "if")).
    { pose proof (general_none name x q t 0 [] E W Hx Rs) as G. change default_ifs with (removelast default_ifs ++ [same "if" IF_PATTERN]). rewrite try_skip.
      - cbn [try_ifs if_re if_name same]. rewrite (fm_match _ _ _ _ _ F). reflexivity.
      - revert G. apply Forall_impl. intros d (G & _). apply no_match0. exact G. }
    induction names as [|n names IH]; [exact D|]. inversion Wn as [|? ? W1 W2]; subst. cbn [declared_ifs fold_right]. unfold process_newif at 1.
    rewrite try_cons; [|apply no_match0; exact (other_none n name (x :: q) t 0 [] E R W1 (fun r => N n r (or_introl eq_refl)))]. apply IH; [exact W2|]. intros m r Im. apply N. right. exact Im.
Qed.
Lemma try_general : forall csname names name rest, Forall word names -> heading names name rest -> plain_name name ->
  exists kind, rule names name kind /\ handle csname (declared_ifs names) (lit "\if" ++ name ++ rest) =
    match extract_else_elseif_fi (searcher (compiled (declared_ifs names))) (searcher FI_PATTERN) (searcher ELSE_PATTERN) (searcher_group ELSIF_PATTERN) rest with
    | Raise ValueError => Ok (None, 0)
    | Raise e => Raise e
    | Ok (a, b, l, e) => Ok (Some (mk_cond kind name (chosen name a b) (chosen name b a) l), 3 + length name + e)
    end.
Proof.
  intros csname names name rest Wn H P. destruct (try_head csname (declared_ifs names) names name rest Wn H P) as (kind & cp & Rk & E). exists kind. split; [exact Rk|].
  unfold handle. rewrite E. unfold handle_general. pose proof (heading_word _ _ _ H) as W.
  rewrite (head_ok csname name rest kind cp W P) by (destruct Rk; auto).
  assert (Sk : skipn (3 + length name) (lit "\if" ++ name ++ rest) = rest).
  { rewrite app_assoc. apply skipn_app_exact. rewrite app_length. reflexivity. }
  unfold str in *. rewrite Sk. destruct (extract_else_elseif_fi _ _ _ _ rest) as [[[[a b] l] e]|x]; [|reflexivity].
  rewrite (keep_word name c_lb (proj1 W) lb_no), (keep_word name c_rb (proj1 W) rb_no). unfold chosen.
  destruct (list_eq_dec N.eq_dec name (lit "false")) as [->|Ne]; [reflexivity|].
  replace (str_eqb name (lit "false")) with false; [reflexivity|]. symmetry. destruct (str_eqb name (lit "false")) eqn:Ef; [|reflexivity]. apply str_eqb_spec in Ef. congruence.
Qed.
Theorem handled_else : forall csname names name b0 b1 rest, Forall word names -> plain_name name -> branch b0 -> branch b1 ->
  heading names name (render (b0 ++ Else (lit "\else") :: b1 ++ Close (lit "\fi") :: rest)) -> fits names (b0 ++ Else (lit "\else") :: b1 ++ Close (lit "\fi") :: rest) ->
  exists kind, rule names name kind /\
  handle csname (declared_ifs names) (lit "\if" ++ name ++ render (b0 ++ Else (lit "\else") :: b1 ++ Close (lit "\fi") :: rest)) =
    Ok (Some (mk_cond kind name (chosen name (strip (render b0)) (strip (render b1))) (chosen name (strip (render b1)) (strip (render b0))) []),
        length (lit "\if" ++ name ++ render b0 ++ lit "\else" ++ render b1 ++ lit "\fi")).
Proof.
  intros csname names name b0 b1 rest Wn P B0 B1 H F. destruct (try_general csname names name _ Wn H P) as (kind & Rk & E). exists kind. split; [exact Rk|]. rewrite E.
  pose proof (fits_reads names _ Wn F) as Rd.
  pose proof (if_else_fi _ _ _ _ b0 [] (lit "\else") b1 (lit "\fi") rest B0 B1 (fun a H => match H with end) (fun b H => match H with end) Rd) as X.
  cbn [alternatives map concat List.app] in X. unfold str in *. rewrite X. f_equal. f_equal.
  rewrite !render_app, !render_cons, !render_app, render_cons. cbn [item_text]. change (render []) with (@nil ch). rewrite app_nil_r. repeat rewrite app_length. change (length (lit "\if")) with 3. lia.
Qed.
Theorem handled_fi : forall csname names name b0 rest, Forall word names -> plain_name name -> branch b0 ->
  heading names name (render (b0 ++ Close (lit "\fi") :: rest)) -> fits names (b0 ++ Close (lit "\fi") :: rest) ->
  exists kind, rule names name kind /\
  handle csname (declared_ifs names) (lit "\if" ++ name ++ render (b0 ++ Close (lit "\fi") :: rest)) =
    Ok (Some (mk_cond kind name (chosen name (strip (render b0)) []) (chosen name [] (strip (render b0))) []), length (lit "\if" ++ name ++ render b0 ++ lit "\fi")).
Proof.
  intros csname names name b0 rest Wn P B0 H F. destruct (try_general csname names name _ Wn H P) as (kind & Rk & E). exists kind. split; [exact Rk|]. rewrite E.
  pose proof (fits_reads names _ Wn F) as Rd.
  pose proof (if_fi _ _ _ _ b0 (lit "\fi") rest B0 Rd) as X. unfold str in *. rewrite X. f_equal. f_equal.
  rewrite !render_app, !render_cons. cbn [item_text]. change (render []) with (@nil ch). rewrite app_nil_r. repeat rewrite app_length. change (length (lit "\if")) with 3. lia.
Qed.
Lemma fits_no_elsif : forall names items, fits names items -> forall i, In i items -> is_elsif i = false.
Proof. induction 1; intros i I; cbn [In] in I; (destruct I as [<-|I] || destruct I); try reflexivity; eauto. Qed.
Theorem unclosed_left : forall csname names name items s, Forall word names -> plain_name name ->
  heading names name (render (items ++ [Txt s])) -> fits names (items ++ [Txt s]) -> s <> [] -> closes 1 items = false ->
  handle csname (declared_ifs names) (lit "\if" ++ name ++ render (items ++ [Txt s])) = Ok (None, 0).
Proof.
  intros csname names name items s Wn P H F Hs C. destruct (try_general csname names name _ Wn H P) as (kind & Rk & E). rewrite E.
  destruct (unclosed_raises _ _ _ _ items s (fits_reads names _ Wn F) Hs C) as (e & X & He). unfold str in *. rewrite X.
  destruct He as [-> | (-> & j & Ij & K)]; [reflexivity|]. rewrite (fits_no_elsif names _ F j) in K; [discriminate K|]. apply in_or_app. left. exact Ij.
Qed.
