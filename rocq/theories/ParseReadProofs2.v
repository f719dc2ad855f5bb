(** C85: one round of the main loop. *)
From Coq Require Import List NArith ZArith PeanoNat Lia Bool String.
From Verif Require Import PyStr Regex RegexLemmas RegexHead TexUtilsModel DelimSpec DelimProofs Json BuilderModel TokensModel CommandModel CommandSpec CommandProofs ParseModel ParseProofs ParseCases ParseRead ParseReadProofs.
Import ListNotations. Notation length := List.length. Notation concat := List.concat. Open Scope list_scope.

(** * The built-in commands *)
Lemma rstr_zero : forall s t j, rel (rstr s) t 0 j -> exists r, t = s ++ r.
Proof. intros s t j H. apply rel_rstr in H as (_ & r & E). exists r. exact E. Qed.
Lemma label_head : forall t m, re_match_at P_label t 0 = Some m -> exists q, t = lit "\label" ++ q.
Proof. intros t m E. apply re_match_at_some in E as (_ & R & _); [|lia]. unfold P_label in R. cbn [rseq] in R. apply rel_rseq2 in R as (k & R & _). eapply rstr_zero. exact R. Qed.
Lemma newline_head : forall t m, re_match_at P_newline t 0 = Some m -> (exists q, t = lit "\newline" ++ q) \/ exists q, t = lit "\linebreak" ++ q.
Proof.
  intros t m E. apply re_match_at_some in E as (_ & R & _); [|lia]. unfold P_newline in R. cbn [rseq] in R. apply rel_rseq2 in R as (k & R & R2).
  apply rel_is_ch in R as (-> & r & E). cbn [skipn] in E. subst t. apply rel_rseq2 in R2 as (k & R & _).
  apply rel_alt2 in R as [R|R]; apply rel_rstr in R as (_ & q & E); cbn [skipn] in E; [left|right]; exists q; rewrite E; reflexivity.
Qed.
Lemma break_head : forall t m, re_match_at P_break t 0 = Some m -> exists q, t = [c_bs; c_bs] ++ q.
Proof. intros t m E. apply re_match_at_some in E as (_ & R & _); [|lia]. unfold P_break in R. cbn [rseq] in R. apply rel_rseq2 in R as (k & R & _). eapply rstr_zero. exact R. Qed.
Lemma continuation_head : forall t m, re_match_at P_continuation t 0 = Some m -> exists q, t = c_bs :: q /\ (forall x r, q = x :: r -> isspace x = true).
Proof.
  intros t m E. apply re_match_at_some in E as (_ & R & _); [|lia]. unfold P_continuation in R. apply rel_rseq2 in R as (k & R & R2).
  apply rel_is_ch in R as (-> & q & E). cbn [skipn] in E. subst t. exists q. split; [reflexivity|]. intros x r ->.
  apply rel_alt2 in R2 as [R2|R2]; inversion R2 as [|? ? ? y Ey Py| | | | | | |? ? A| | | | | ]; subst.
  - cbn [nth_error] in Ey. injection Ey as ->. exact Py.
  - unfold at_end in A. cbn [skipn] in A. destruct r; [|destruct (N.eqb x c_nl); discriminate].
    apply N.eqb_eq in A. subst x. reflexivity.
Qed.
Section Round.
Variable St : Type.
Variable expand : St -> str -> res str.
Variable user_command : St -> str -> res (option (str * Z)).
Variable define : St -> str -> res (St * Z).
Variable if_else : St -> str -> res (option (str * Z)).
Variable legacy : St -> str -> res (option (str * Z)).
Variable handlers : list (handler St).
Variable process : parser St -> bool -> tok_in -> St -> list dict -> run (St * list dict).
Variable on_label : St -> str -> list dict -> res (St * list dict).
Let actsf := acts St expand user_command define if_else legacy handlers process on_label.
Let dispatchf := dispatch St expand user_command define if_else legacy handlers process on_label.
Let afterf := after_group St expand user_command define if_else legacy handlers process on_label.
Let stepf := step St expand user_command define if_else legacy handlers process on_label.

Lemma no_builtin : forall o s d tk, not_builtin d -> check_remaining St on_label o s d tk = Ok None.
Proof.
  intros o s d tk (x & r & E & Sx & Nx & N). unfold check_remaining.
  destruct (re_match_at P_label d 0) as [m|] eqn:E1; [exfalso; apply label_head in E1 as (q & E1); apply (proj1 (N q)); exact E1|].
  destruct (re_match_at P_newline d 0) as [m|] eqn:E2; [exfalso; apply newline_head in E2 as [(q & E2)|(q & E2)]; destruct (N q) as (_ & A & B); [apply A|apply B]; exact E2|].
  destruct (re_match_at P_break d 0) as [m|] eqn:E3; [exfalso; apply break_head in E3 as (q & E3); rewrite E in E3; injection E3 as; congruence|].
  destruct (re_match_at P_continuation d 0) as [m|] eqn:E4; [|reflexivity]. exfalso. apply continuation_head in E4 as (q & E4 & Q). rewrite E in E4. injection E4 as <-. rewrite (Q x r eq_refl) in Sx. discriminate.
Qed.
Lemma no_backslash : forall o s d tk, (forall r, d <> c_bs :: r) -> check_remaining St on_label o s d tk = Ok None /\ check_unknown St expand s d = Ok None.
Proof.
  intros o s d tk N. split.
  - unfold check_remaining.
    destruct (re_match_at P_label d 0) as [m|] eqn:E1; [exfalso; apply label_head in E1 as (q & E1); eapply N; exact E1|].
    destruct (re_match_at P_newline d 0) as [m|] eqn:E2; [exfalso; apply newline_head in E2 as [(q & E2)|(q & E2)]; eapply N; exact E2|].
    destruct (re_match_at P_break d 0) as [m|] eqn:E3; [exfalso; apply break_head in E3 as (q & E3); eapply N; exact E3|].
    destruct (re_match_at P_continuation d 0) as [m|] eqn:E4; [|reflexivity]. exfalso. apply continuation_head in E4 as (q & E4 & _). eapply N; exact E4.
  - unfold check_unknown. destruct (re_match_at P_unknown d 0) as [m|] eqn:E; [|reflexivity]. exfalso.
    apply re_match_at_some in E as (_ & R & _); [|lia]. unfold P_unknown in R. apply rel_rseq2 in R as (k & R & _). apply rel_is_ch in R as (_ & r & E). eapply N; exact E.
Qed.
Lemma not_unknown : forall s x rest, ~ word_char x -> x <> 42%N -> check_unknown St expand s (c_bs :: x :: rest) = Ok None.
Proof.
  intros s x rest N1 N2. unfold check_unknown. destruct (re_match_at P_unknown (c_bs :: x :: rest) 0) as [m|] eqn:E; [|reflexivity]. exfalso.
  apply re_match_at_some in E as (_ & R & _); [|lia]. unfold P_unknown in R. apply rel_rseq2 in R as (k & R & R2). apply rel_is_ch in R as (-> & _).
  apply rel_rseq2 in R2 as (k & R & _). unfold rplus in R. apply rel_rseq2 in R as (k2 & R & _). inversion R as [|? ? ? y Ey Py| | | | | | | | | | | | ]; subst. cbn [nth_error] in Ey. injection Ey as ->.
  apply orb_true_iff in Py as [Py|Py]; [|apply N.eqb_eq in Py; congruence]. apply N1. apply name_ch_spec. exact Py.
Qed.
Lemma label_read : forall o s ws l rest tk s2 tk2, blank ws -> good_body l -> l <> [] -> on_label s l tk = Ok (s2, tk2) ->
  let d := lit "\label" ++ ws ++ [c_lb] ++ l ++ [c_rb] ++ rest in
  check_remaining St on_label o s d tk = Ok (Some (s2, tk2, length d - length rest)).
Proof.
  intros o s ws l rest tk s2 tk2 Hw Hl Nl E d. unfold check_remaining.
  assert (M : re_match_at P_label d 0 = Some {| m_start := 0; m_end := S (6 + length ws); m_caps := [] |}).
  { apply fm_match. unfold P_label. cbn [rseq]. eapply fm_seq; [apply (fm_rstr (lit "\label") d 0 [] _ eq_refl)|]. change (0 + length (lit "\label")) with 6.
    eapply fm_seq; [apply (fm_star isspace d 6 [] ws ([c_lb] ++ l ++ [c_rb] ++ rest)); [reflexivity|exact Hw|reflexivity]|].
    eapply (fm_is_ch c_lb _ _ _ (l ++ [c_rb] ++ rest)). apply (skipn_more d 6 ws). reflexivity. }
  rewrite M. cbn [m_end]. replace (S (6 + length ws) - 1) with (6 + length ws) by lia. cbv zeta.
  assert (Sk : skipn (6 + length ws) d = [c_lb] ++ l ++ [c_rb] ++ rest) by (apply (skipn_more d 6 ws); reflexivity). rewrite Sk.
  assert (G : extract_nested_content ([c_lb] ++ l ++ [c_rb] ++ rest) c_lb c_rb = (Some l, 0 + 1 + length l + 1)).
  { apply (extract_nested_content_iff c_lb c_rb _ _ _ delims_curly). exists [], rest. split; [reflexivity|]. split; [reflexivity|]. destruct Hl as [H1 H2]. split; [exact H1|]. split; [exact H2|reflexivity]. }
  rewrite G. destruct l as [|x l]; [congruence|]. rewrite E. cbn [bind]. f_equal. f_equal. f_equal.
  unfold d. repeat (rewrite app_length || cbn [List.length]). change (length (lit "\label")) with 6. lia.
Qed.
Lemma newline_read : forall o s name rest tk tk1, In name [lit "\newline"; lit "\linebreak"] -> (forall x q, rest = x :: q -> ~ is_letter x) ->
  add_token (TStr [c_nl]) tk false = Ok tk1 -> check_remaining St on_label o s (name ++ rest) tk = Ok (Some (s, tk1, length name)).
Proof.
  intros o s name rest tk tk1 In' N E. unfold check_remaining.
  assert (L : re_match_at P_label (name ++ rest) 0 = None) by (destruct In' as [<-|[<-|[]]]; vm_compute; reflexivity). rewrite L.
  assert (M : re_match_at P_newline (name ++ rest) 0 = Some {| m_start := 0; m_end := length name; m_caps := [] |}).
  { apply fm_match. unfold P_newline. cbn [rseq].
    assert (Ah : first_match (RAhead true (RChr letter)) (name ++ rest) (length name) [] (length name) []).
    { unfold first_match. cbn [rm]. unfold next_is. rewrite nth_error_skipn, skip_pre. destruct rest as [|x q]; [eexists; reflexivity|].
      assert (F : letter x = false); [|rewrite F; eexists; reflexivity]. destruct (letter x) eqn:F; [|reflexivity]. exfalso. apply (N x q eq_refl). 
      unfold letter in F. unfold is_letter. apply orb_true_iff in F as [F|F]; apply andb_prop in F as [F1 F2]; apply N.leb_le in F1; apply N.leb_le in F2; [left|right]; split; assumption. }
    destruct In' as [<-|[<-|[]]].
    - eapply fm_seq; [eapply (fm_is_ch c_bs _ _ _ (lit "newline" ++ rest)); reflexivity|]. eapply fm_seq; [apply fm_alt_left; apply (fm_rstr (lit "newline") (lit "\newline" ++ rest) 1 [] rest); reflexivity|]. exact Ah.
    - eapply fm_seq; [eapply (fm_is_ch c_bs _ _ _ (lit "linebreak" ++ rest)); reflexivity|]. eapply fm_seq; [apply fm_alt_right; [vm_compute; reflexivity|apply (fm_rstr (lit "linebreak") (lit "\linebreak" ++ rest) 1 [] rest); reflexivity]|]. exact Ah. }
  rewrite M. rewrite E. reflexivity.
Qed.
Lemma break_none : forall rest : str, re_match_at P_label ([c_bs; c_bs] ++ rest) 0 = None /\ re_match_at P_newline ([c_bs; c_bs] ++ rest) 0 = None.
Proof. intros rest. split; vm_compute; reflexivity. Qed.
Lemma break_read : forall o s rest tk tk1, (forall ws a q, blank ws -> ~ In c_rk a -> rest <> ws ++ [c_lk] ++ a ++ [c_rk] ++ q) ->
  add_token (TStr (line_break o)) tk false = Ok tk1 -> check_remaining St on_label o s ([c_bs; c_bs] ++ rest) tk = Ok (Some (s, tk1, 2)).
Proof.
  intros o s rest tk tk1 N E. unfold check_remaining. destruct (break_none rest) as [-> ->].
  destruct (re_match_at P_break ([c_bs; c_bs] ++ rest) 0) as [m|] eqn:M.
  - rewrite E. cbn [bind]. f_equal. f_equal. f_equal. apply re_match_at_some in M as (_ & R & _); [|lia]. unfold P_break in R. cbn [rseq] in R.
    apply rel_rseq2 in R as (k & R1 & R). apply rel_rstr in R1 as (-> & _). change (0 + length [c_bs; c_bs]) with 2 in R.
    unfold ropt in R. apply rel_alt2 in R as [R|R]; [exfalso|inversion R; subst; reflexivity].
    cbn [rseq] in R. apply rel_rseq2 in R as (a & R1 & R). apply rel_star_chr in R1 as (ws & r1 & E1 & B1 & ->). cbn [skipn app] in E1.
    apply rel_rseq2 in R as (b & R2 & R). apply rel_is_ch in R2 as (-> & r2 & E2). 
    assert (E2' : r1 = c_lk :: r2) by (rewrite <- (skipn_more ([c_bs; c_bs] ++ rest) 2 ws r1 E1); exact E2).
    apply rel_rseq2 in R as (c & R3 & R4). apply rel_grp1 in R3. apply rel_star_chr in R3 as (a & r3 & E3 & B3 & ->).
    pose proof (skipn_more1 _ _ _ _ E2) as E2s. assert (E3' : r2 = a ++ r3) by (pose proof (eq_trans (eq_sym E2s) E3); assumption).
    apply rel_is_ch in R4 as (_ & r4 & E4). pose proof (skipn_more _ _ _ _ E3) as E3s. assert (E4' : r3 = c_rk :: r4) by (pose proof (eq_trans (eq_sym E3s) E4); assumption).
    apply (N ws a r4 B1); [|rewrite E1, E2', E3', E4'; reflexivity].
    intros Ia. rewrite forallb_forall in B3. specialize (B3 c_rk Ia). discriminate B3.
  - exfalso. rewrite re_match_at_none in M by lia. apply (M 2). unfold P_break. cbn [rseq]. apply rel_rseq2. exists 2. split; [apply rel_rstr; split; [reflexivity|eexists; reflexivity]|].
    unfold ropt. apply rel_altr. constructor.
Qed.
Lemma break_by_read : forall o s ws a rest tk tk1, blank ws -> ~ In c_rk a -> add_token (TStr (line_break o)) tk false = Ok tk1 ->
  let d := [c_bs; c_bs] ++ ws ++ [c_lk] ++ a ++ [c_rk] ++ rest in
  check_remaining St on_label o s d tk = Ok (Some (s, tk1, length d - length rest)).
Proof.
  intros o s ws a rest tk tk1 B N E d. unfold check_remaining. destruct (break_none (ws ++ [c_lk] ++ a ++ [c_rk] ++ rest)) as [B1 B2]. fold d in B1, B2. rewrite B1, B2.
  assert (M : exists cp, re_match_at P_break d 0 = Some {| m_start := 0; m_end := S (S (2 + length ws) + length a); m_caps := cp |}).
  { eexists. apply fm_match. unfold P_break. cbn [rseq]. eapply fm_seq; [apply (fm_rstr [c_bs; c_bs] d 0 [] (ws ++ [c_lk] ++ a ++ [c_rk] ++ rest)); reflexivity|]. change (0 + length [c_bs; c_bs]) with 2.
    unfold ropt. apply fm_alt_left. eapply fm_seq; [apply (fm_star isspace d 2 [] ws ([c_lk] ++ a ++ [c_rk] ++ rest)); [reflexivity|exact B|reflexivity]|].
    assert (S1 : skipn (2 + length ws) d = c_lk :: a ++ [c_rk] ++ rest) by (apply (skipn_more d 2 ws); reflexivity).
    eapply fm_seq; [eapply (fm_is_ch c_lk); exact S1|]. apply skipn_more1 in S1.
    eapply fm_seq; [apply fm_grp; apply (fm_star _ d _ [] a ([c_rk] ++ rest)); [exact S1| |reflexivity]|].
    - apply forallb_forall. intros y Iy. unfold in_str. cbn [existsb]. rewrite orb_false_r. apply negb_true_iff, N.eqb_neq. intros ->. exact (N Iy).
    - eapply (fm_is_ch c_rk). apply (skipn_more d _ a). exact S1. }
  destruct M as (cp & M). rewrite M. rewrite E. cbn [bind m_end]. f_equal. f_equal. f_equal.
  unfold d. repeat (rewrite app_length || cbn [List.length]). lia.
Qed.
Lemma space_read : forall o s x rest tk, isspace x = true -> check_remaining St on_label o s (c_bs :: x :: rest) tk = Ok (Some (s, tk, 2)).
Proof.
  intros o s x rest tk Sx. unfold check_remaining.
  destruct (re_match_at P_label (c_bs :: x :: rest) 0) as [m|] eqn:E1; [exfalso; apply label_head in E1 as (q & E1); injection E1 as E1 _; subst x; discriminate|].
  destruct (re_match_at P_newline (c_bs :: x :: rest) 0) as [m|] eqn:E2; [exfalso; apply newline_head in E2 as [(q & E2)|(q & E2)]; injection E2 as E2 _; subst x; discriminate|].
  destruct (re_match_at P_break (c_bs :: x :: rest) 0) as [m|] eqn:E3; [exfalso; apply break_head in E3 as (q & E3); injection E3 as E3 _; subst x; discriminate|].
  assert (M : re_match_at P_continuation (c_bs :: x :: rest) 0 = Some {| m_start := 0; m_end := 2; m_caps := [] |}).
  { apply fm_match. unfold P_continuation. eapply fm_seq; [eapply (fm_is_ch c_bs _ _ _ (x :: rest)); reflexivity|]. apply fm_alt_left. apply (fm_chr isspace _ 1 [] x rest); [reflexivity|exact Sx]. }
  rewrite M. reflexivity.
Qed.

(** * Dispatch *)
Lemma idle_none : forall f s d u, idle St f s d -> f s d = Ok u -> match u with Some (r, e) => if (0 <? e)%Z then Some (r, e) else None | None => None end = None.
Proof. intros f s d u [H|(r & z & H & L)] E; rewrite E in H; injection H as ->; [reflexivity|]. replace (0 <? z)%Z with false by (symmetry; apply Z.ltb_ge; lia). reflexivity. Qed.
Lemma idle_ok : forall f s d, idle St f s d -> exists u, f s d = Ok u /\ match u with Some (r, e) => if (0 <? e)%Z then Some (r, e) else None | None => None end = None.
Proof. intros f s d H. assert (X : exists u, f s d = Ok u) by (destruct H as [H|(r & z & H & _)]; eauto). destruct X as (u & E). exists u. split; [exact E|]. eapply idle_none; eauto. Qed.
Lemma refused : forall ps hs s d tk, Forall (fun h => h_can h s d = false) hs -> check_handlers St process ps hs s d tk = ret (s, tk, None).
Proof. intros ps hs s d tk F. induction F as [|h hs H F IH]; [reflexivity|]. cbn [check_handlers]. rewrite H. exact IH. Qed.
Lemma accepted : forall ps hs1 h hs2 s d tk, Forall (fun h => h_can h s d = false) hs1 -> h_can h s d = true ->
  check_handlers St process ps (hs1 ++ h :: hs2) s d tk = rbind (apply_handler St process ps h s d tk) (fun r => ret (fst (fst r), snd (fst r), Some (snd r))).
Proof.
  intros ps hs1 h hs2 s d tk F C. induction F as [|g hs H F IH]; cbn [app check_handlers].
  - rewrite C. destruct (apply_handler St process ps h s d tk) as [[[[s1 tk1] e]|]|]; reflexivity.
  - rewrite H. exact IH.
Qed.

Definition reaches (d : str) (content : str) (pos : Z) (tk : list dict) (a : act St) : outcome St :=
  match a with Replaced s1 r e => Next s1 (spliced content pos r (Z.of_nat e)) pos tk | Consumed s1 tk1 e => Next s1 content (pos + Z.of_nat e) tk1 end.

Lemma dispatch_acts : forall ps o s content pos tk d a, (0 <= pos)%Z -> from content pos = d -> d <> [] -> actsf o ps s tk d a ->
  dispatchf ps o s content pos tk = ret (reaches d content pos tk a).
Proof.
  intros ps o s content pos tk d a Hp Ed Nd A. unfold dispatchf, dispatch. rewrite Ed. cbv zeta.
  assert (User : forall K : run (outcome St), idle St user_command s d ->
    (ask u <- Some (user_command s d);
     match (match u with Some (r, e) => if (0 <? e)%Z then Some (r, e) else None | None => None end) with
     | Some (r, e) => ret (Next s (spliced content pos r e) pos tk) | None => K end) = K).
  { intros K I. destruct (idle_ok _ _ _ I) as (u & -> & E). cbn [rbind]. rewrite E. reflexivity. }
  assert (Idle2 : forall (f : St -> str -> res (option (str * Z))) s1 (K : run (outcome St)), idle St f s1 d ->
    (ask u <- Some (f s1 d);
     match (match u with Some (r, e) => if (0 <? e)%Z then Some (r, e) else None | None => None end) with
     | Some (r, e) => ret (Next s1 (spliced content pos r e) pos tk) | None => K end) = K).
  { intros f s1 K I. destruct (idle_ok _ _ _ I) as (u & -> & E). cbn [rbind]. rewrite E. reflexivity. }
  assert (Hits : forall (f : St -> str -> res (option (str * Z))) s1 (K : run (outcome St)) r e, f s1 d = Ok (Some (r, Z.of_nat e)) -> 0 < e ->
    (ask u <- Some (f s1 d);
     match (match u with Some (r, e) => if (0 <? e)%Z then Some (r, e) else None | None => None end) with
     | Some (r, e) => ret (Next s1 (spliced content pos r e) pos tk) | None => K end) = ret (Next s1 (spliced content pos r (Z.of_nat e)) pos tk)).
  { intros f s1 K r e -> L. cbn [rbind]. replace (0 <? Z.of_nat e)%Z with true by (symmetry; apply Z.ltb_lt; lia). reflexivity. }
  assert (Defs : forall (K : St -> run (outcome St)) s1, (exists z, define s d = Ok (s1, z) /\ (z <= 0)%Z) ->
    (ask (s, e) <- Some (define s d); if (0 <? e)%Z then ret (Next s content (pos + e)%Z tk) else K s) = K s1).
  { intros K s1 (z & -> & L). cbn [rbind]. replace (0 <? z)%Z with false by (symmetry; apply Z.ltb_ge; lia). reflexivity. }
  assert (Leg : forall s1 (K : run (outcome St)), (legacy_on o = true -> idle St legacy s1 d) ->
    (ask u <- Some (if legacy_on o then legacy s1 d else Ok None);
     match (match u with Some (r, e) => if (0 <? e)%Z then Some (r, e) else None | None => None end) with
     | Some (r, e) => ret (Next s1 (spliced content pos r e) pos tk) | None => K end) = K).
  { intros s1 K I. destruct (legacy_on o); [|reflexivity]. apply Idle2. apply I. reflexivity. }
  assert (Rem : forall s1 tk1 e, check_remaining St on_label o s1 d tk = Ok (Some (tk1, e)) -> True) by auto. clear Rem.
  destruct A as [r e E L|s1 e I E L|s1 r e (I & D) E L|s1 r e (I & D) I2 O E L|s1 hs1 h hs2 s2 t e ((I & D) & I2 & Il) Eh F C Er Nt|s1 hs1 h hs2 s2 t e s3 tk3 ((I & D) & I2 & Il) Eh F C Er Nt Ep
    |s1 ws l rest s2 tk2 (((I & D) & I2 & Il) & F) Ed' B G Nl E|s1 name rest tk1 (((I & D) & I2 & Il) & F) In' Ed' N E|s1 rest tk1 (((I & D) & I2 & Il) & F) Ed' N E|s1 ws a rest tk1 (((I & D) & I2 & Il) & F) Ed' B N E
    |s1 x rest (((I & D) & I2 & Il) & F) Ed' Sx|s1 tok e tk1 (((I & D) & I2 & Il) & F) Nb O E Ea|s1 x rest tk1 (((I & D) & I2 & Il) & F) Nb Ed' W E|s1 x rest tk1 (((I & D) & I2 & Il) & F) Ed' Nx E]; cbn [reaches].
  - apply Hits; assumption.
  - rewrite (User _ I). rewrite E. cbn [rbind]. replace (0 <? Z.of_nat e)%Z with true by (symmetry; apply Z.ltb_lt; lia). reflexivity.
  - rewrite (User _ I). rewrite (Defs _ _ D). apply Hits; assumption.
  - rewrite (User _ I). rewrite (Defs _ _ D). rewrite (Idle2 _ _ _ I2). rewrite O. apply Hits; assumption.
  - rewrite (User _ I). rewrite (Defs _ _ D). rewrite (Idle2 _ _ _ I2). rewrite (Leg _ _ Il). rewrite Eh, (accepted ps hs1 h hs2 s1 d tk F C).
    unfold apply_handler. rewrite Er. unfold ret at 1. cbn [rbind]. destruct Nt as [-> |[-> |[-> | ->]]]; reflexivity.
  - rewrite (User _ I). rewrite (Defs _ _ D). rewrite (Idle2 _ _ _ I2). rewrite (Leg _ _ Il). rewrite Eh, (accepted ps hs1 h hs2 s1 d tk F C).
    unfold apply_handler. rewrite Er. unfold ret at 1. cbn [rbind]. unfold nothing in Nt.
    assert (X : (match t with TNone | TStr [] | TDict [] | TList [] => ret (s2, tk, Z.of_nat e) | _ => ask (s0, tokens2) <- process ps (h_env h) t s2 tk; ret (s0, tokens2, Z.of_nat e) end) = ret (s3, tk3, Z.of_nat e)).
    { rewrite Ep. destruct t as [|[|]|[|]|[|]]; try reflexivity; exfalso; apply Nt; tauto. }
    rewrite X. reflexivity.
  - rewrite (User _ I). rewrite (Defs _ _ D). rewrite (Idle2 _ _ _ I2). rewrite (Leg _ _ Il). rewrite (refused ps handlers s1 d tk F). unfold ret at 1. cbn [rbind].
    pose proof (label_read o s1 ws l rest tk s2 tk2 B G Nl E) as R. cbv zeta in R. rewrite <- Ed' in R. rewrite R. reflexivity.
  - rewrite (User _ I). rewrite (Defs _ _ D). rewrite (Idle2 _ _ _ I2). rewrite (Leg _ _ Il). rewrite (refused ps handlers s1 d tk F). unfold ret at 1. cbn [rbind].
    pose proof (newline_read o s1 name rest tk tk1 In' N E) as R. rewrite <- Ed' in R. rewrite R. reflexivity.
  - rewrite (User _ I). rewrite (Defs _ _ D). rewrite (Idle2 _ _ _ I2). rewrite (Leg _ _ Il). rewrite (refused ps handlers s1 d tk F). unfold ret at 1. cbn [rbind].
    pose proof (break_read o s1 rest tk tk1 N E) as R. rewrite <- Ed' in R. rewrite R. reflexivity.
  - rewrite (User _ I). rewrite (Defs _ _ D). rewrite (Idle2 _ _ _ I2). rewrite (Leg _ _ Il). rewrite (refused ps handlers s1 d tk F). unfold ret at 1. cbn [rbind].
    pose proof (break_by_read o s1 ws a rest tk tk1 B N E) as R. cbv zeta in R. rewrite <- Ed' in R. rewrite R. reflexivity.
  - rewrite (User _ I). rewrite (Defs _ _ D). rewrite (Idle2 _ _ _ I2). rewrite (Leg _ _ Il). rewrite (refused ps handlers s1 d tk F). unfold ret at 1. cbn [rbind].
    pose proof (space_read o s1 x rest tk Sx) as R. rewrite <- Ed' in R. rewrite R. reflexivity.
  - rewrite (User _ I). rewrite (Defs _ _ D). rewrite (Idle2 _ _ _ I2). rewrite (Leg _ _ Il). rewrite (refused ps handlers s1 d tk F). unfold ret at 1. cbn [rbind].
    rewrite (no_builtin o s1 d tk Nb). cbn [rbind]. rewrite O, E. cbn [rbind]. rewrite Ea. reflexivity.
  - rewrite (User _ I). rewrite (Defs _ _ D). rewrite (Idle2 _ _ _ I2). rewrite (Leg _ _ Il). rewrite (refused ps handlers s1 d tk F). unfold ret at 1. cbn [rbind].
    rewrite (no_builtin o s1 d tk Nb). cbn [rbind].
    assert (U : (if unknown_on o then check_unknown St expand s1 d else Ok None) = Ok None).
    { destruct W as [-> |[W1 W2]]; [reflexivity|]. rewrite Ed', not_unknown by assumption. destruct (unknown_on o); reflexivity. }
    rewrite U. cbn [rbind]. assert (Ap : at_pos content pos = Ok c_bs).
    { rewrite from_nat in Ed by exact Hp. rewrite at_pos_nat by exact Hp. rewrite nth_error_skipn, Ed, Ed'. reflexivity. }
    rewrite Ap. cbn [rbind]. rewrite E. reflexivity.
  - rewrite (User _ I). rewrite (Defs _ _ D). rewrite (Idle2 _ _ _ I2). rewrite (Leg _ _ Il). rewrite (refused ps handlers s1 d tk F). unfold ret at 1. cbn [rbind].
    destruct (no_backslash o s1 d tk) as [R1 R2]; [intros r Q; rewrite Q in Ed'; injection Ed' as Q2 _; congruence|]. rewrite R1. cbn [rbind].
    assert (U : (if unknown_on o then check_unknown St expand s1 d else Ok None) = Ok None) by (rewrite R2; destruct (unknown_on o); reflexivity).
    rewrite U. cbn [rbind]. assert (Ap : at_pos content pos = Ok x).
    { rewrite from_nat in Ed by exact Hp. rewrite at_pos_nat by exact Hp. rewrite nth_error_skipn, Ed, Ed'. reflexivity. }
    rewrite Ap. cbn [rbind]. rewrite E. reflexivity.
Qed.
End Round.
