From Coq Require Import List NArith ZArith PeanoNat Lia Bool String.
From Verif Require Import PyStr Regex RegexLemmas RegexHead TexUtilsModel DelimSpec DelimProofs DelimFinal KeyvalModel KeyvalProofs BibModel BibSpec BibProofs.
Import ListNotations. Notation length := List.length. Notation concat := List.concat. Open Scope list_scope.

Section Bib.
Variable isword : ch -> bool.
Variable lower : str -> str.
Hypothesis Hword : word_class isword.
Notation FieldPattern := (BibTexFieldPattern isword).
Notation EntryPattern := (BibTexPattern isword).

Definition head_no (p : ch -> bool) (s : str) : Prop := (match s with x :: _ => p x | [] => false end) = false.
Lemma word_not_space : forall x, isword x = true -> isspace x = false.
Proof. intros x H. apply (proj1 (Hword x H)). Qed.
Lemma space_not_word : forall x, isspace x = true -> isword x = false.
Proof. intros x H. destruct (isword x) eqn:E; [|reflexivity]. rewrite (word_not_space x E) in H. discriminate. Qed.
Lemma not_word : forall x, In x (lit "=,@{}\") -> isword x = false.
Proof. intros x H. destruct (isword x) eqn:E; [|reflexivity]. destruct (Hword x E) as (_ & N & _). contradiction. Qed.
Lemma blank_head : forall p ws s, blank ws -> (forall x, isspace x = true -> p x = false) -> head_no p s -> head_no p (ws ++ s).
Proof.
  intros p ws s W P H. destruct ws as [|x ws]; [exact H|]. unfold head_no. cbn [List.app]. apply P. unfold blank in W. cbn in W. apply andb_true_iff in W. apply W.
Qed.

Lemma field_first : forall name w1 w2 x r, word isword name -> blank w1 -> blank w2 -> isspace x = false ->
  re_search FieldPattern (name ++ w1 ++ [c_eq] ++ w2 ++ x :: r) =
  Some {| m_start := 0; m_end := length name + length w1 + 1 + length w2; m_caps := [(1, (0, length name))] |}.
Proof.
  intros name w1 w2 x r (NE & FW) W1 W2 HX. apply fm_search0. unfold BibTexFieldPattern. cbn [rseq].
  set (t := name ++ w1 ++ [c_eq] ++ w2 ++ x :: r).
  assert (skipn 0 t = name ++ (w1 ++ [c_eq] ++ w2 ++ x :: r)) as E0 by reflexivity.
  assert (skipn (length name) t = w1 ++ ([c_eq] ++ w2 ++ x :: r)) as E1 by (apply (skipn_more t 0 _ _ E0)).
  pose proof (skipn_more _ _ _ _ E1) as E2. cbn [List.app] in E2. pose proof (skipn_more1 _ _ _ _ E2) as E3.
  eapply fm_seq; [apply fm_grp; eapply fm_plus; [exact E0|exact NE|exact FW|]|].
  { apply (blank_head isword w1); [exact W1|exact space_not_word|]. apply not_word. left. reflexivity. }
  cbn [plus]. eapply fm_seq; [eapply fm_star; [exact E1|exact W1|reflexivity]|].
  eapply fm_seq; [eapply fm_is_ch; exact E2|].
  replace (length name + length w1 + 1 + length w2) with (S (length name + length w1) + length w2) by lia.
  eapply fm_star; [exact E3|exact W2|exact HX].
Qed.
Lemma quote_first : forall v r, ~ In c_quote v ->
  re_match_at quote_pattern ([c_quote] ++ v ++ c_quote :: r) 0 = Some {| m_start := 0; m_end := length v + 2; m_caps := [(1, (1, 1 + length v))] |}.
Proof.
  intros v r N. apply fm_match. unfold quote_pattern. cbn [rseq].
  set (t := [c_quote] ++ v ++ c_quote :: r).
  assert (skipn 0 t = c_quote :: v ++ c_quote :: r) as E0 by reflexivity.
  assert (skipn 1 t = v ++ c_quote :: r) as E1 by reflexivity.
  pose proof (skipn_more _ _ _ _ E1) as E2.
  eapply fm_seq; [eapply (fm_star isspace t 0 _ []); [exact E0|reflexivity|reflexivity]|]. cbn [length plus].
  eapply fm_seq; [eapply fm_is_ch; exact E0|].
  eapply fm_seq; [apply fm_grp; eapply fm_star; [exact E1| |reflexivity]|].
  { apply forallb_forall. intros y I. apply negb_true_iff, N.eqb_neq. intros ->. contradiction. }
  replace (length v + 2) with (S (1 + length v)) by lia.
  eapply fm_is_ch; exact E2.
Qed.

Lemma nsep_app : forall sep rest, separators sep -> head_no sep_char rest -> nsep (sep ++ rest) = length sep.
Proof.
  induction sep as [|x sep IH]; intros rest S H.
  - cbn [List.app length]. destruct rest as [|y rest]; [reflexivity|]. unfold head_no in H. cbn [nsep]. rewrite H. reflexivity.
  - unfold separators in S. cbn in S. apply andb_true_iff in S. destruct S as [Sx S]. cbn [List.app nsep length]. rewrite Sx, IH by assumption. reflexivity.
Qed.
Lemma field_list_head : forall t fs, field_list isword t fs -> head_no sep_char t.
Proof.
  assert (forall name r, word isword name -> head_no sep_char (name ++ r)) as H.
  { intros [|x name] r (NE & F); [contradiction|]. unfold head_no. cbn [List.app]. cbn in F. apply andb_true_iff in F. destruct F as [F _].
    unfold sep_char. destruct (Hword x F) as (S & N & _). rewrite S. cbn [orb]. apply N.eqb_neq. intros ->. apply N. right. left. reflexivity. }
  intros t fs F. destruct F; [reflexivity|apply H; assumption|apply H; assumption].
Qed.
Lemma slice0 : forall (a b : str), slice 0 (length a) (a ++ b) = a.
Proof. intros. unfold slice. cbn [skipn]. rewrite Nat.sub_0_r. apply firstn_app_exact. reflexivity. Qed.

Lemma fields_ok : forall t fs, field_list isword t fs -> forall pre acc fuel, length t < fuel ->
  fields_loop isword lower fuel (pre ++ t) (length pre) acc = Some (fold_left (fun d kv => sset (lower (fst kv)) (snd kv) d) fs acc).
Proof.
  induction 1 as [|name w1 w2 v sep rest fs Wn W1 W2 B C S F IH|name w1 w2 v sep rest fs Wn W1 W2 Q S F IH]; intros pre acc fuel Hf.
  - destruct fuel as [|fuel]; [lia|]. cbn [fields_loop fold_left]. rewrite app_nil_r, Nat.ltb_irrefl. reflexivity.
  - destruct fuel as [|fuel]; [lia|]. cbn [fields_loop].
    set (t := name ++ w1 ++ [c_eq] ++ w2 ++ [c_lb] ++ v ++ [c_rb] ++ sep ++ rest) in *.
    assert (0 < length t) as Lt by (unfold t; rewrite !app_length; cbn [length]; lia).
    replace (Nat.ltb (length pre) (length (pre ++ t))) with true by (symmetry; apply Nat.ltb_lt; rewrite app_length; lia).
    rewrite (skipn_len pre t) by reflexivity.
    change t with (name ++ w1 ++ [c_eq] ++ w2 ++ c_lb :: v ++ [c_rb] ++ sep ++ rest) at 1. rewrite (field_first name w1 w2 c_lb) by (assumption || reflexivity). cbn [m_end].
    unfold m_group. cbn [m_caps cap_get option_map Nat.eqb]. assert (slice 0 (length name) t = name) as ES by (unfold t; apply slice0). rewrite ES.
    set (st := length pre + (length name + length w1 + 1 + length w2)).
    assert (skipn st (pre ++ t) = c_lb :: v ++ [c_rb] ++ sep ++ rest) as E1.
    { unfold st, t. replace (pre ++ name ++ w1 ++ [c_eq] ++ w2 ++ [c_lb] ++ v ++ [c_rb] ++ sep ++ rest) with
        ((pre ++ name ++ w1 ++ [c_eq] ++ w2) ++ c_lb :: v ++ [c_rb] ++ sep ++ rest) by (rewrite <- !app_assoc; reflexivity).
      apply skipn_len. rewrite !app_length. cbn [length]. lia. }
    rewrite !E1. change (startswith (lstrip (c_lb :: v ++ [c_rb] ++ sep ++ rest)) [c_lb]) with true. cbn [nlead isspace]. 
    change (nlead (c_lb :: v ++ [c_rb] ++ sep ++ rest)) with 0. rewrite Nat.add_0_r, E1.
    assert (extract_nested_content (c_lb :: v ++ [c_rb] ++ sep ++ rest) c_lb c_rb = (Some v, length v + 2)) as EX.
    { apply extract_nested_content_iff; [exact delims_curly|]. exists [], (sep ++ rest). split; [reflexivity|]. split; [reflexivity|]. split; [exact B|]. split; [exact C|]. cbn [length]. lia. }
    rewrite EX.
    assert (skipn (st + (length v + 2)) (pre ++ t) = sep ++ rest) as E2.
    { rewrite <- skipn_add, E1. replace (c_lb :: v ++ [c_rb] ++ sep ++ rest) with ((c_lb :: v ++ [c_rb]) ++ sep ++ rest) by (cbn [List.app]; rewrite <- app_assoc; reflexivity).
      apply skipn_len. cbn [length]. rewrite app_length. cbn [length]. lia. }
    rewrite E2, (nsep_app sep rest S (field_list_head _ _ F)).
    replace (pre ++ t) with ((pre ++ name ++ w1 ++ [c_eq] ++ w2 ++ [c_lb] ++ v ++ [c_rb] ++ sep) ++ rest) by (unfold t; rewrite <- !app_assoc; reflexivity).
    replace (st + (length v + 2) + length sep) with (length (pre ++ name ++ w1 ++ [c_eq] ++ w2 ++ [c_lb] ++ v ++ [c_rb] ++ sep))
      by (unfold st; rewrite !app_length; cbn [length]; lia).
    rewrite IH; [rewrite ?ES; reflexivity|]. unfold t in Hf. rewrite !app_length in Hf. cbn [length] in Hf. lia.
  - destruct fuel as [|fuel]; [lia|]. cbn [fields_loop].
    set (t := name ++ w1 ++ [c_eq] ++ w2 ++ [c_quote] ++ v ++ [c_quote] ++ sep ++ rest) in *.
    assert (0 < length t) as Lt by (unfold t; rewrite !app_length; cbn [length]; lia).
    replace (Nat.ltb (length pre) (length (pre ++ t))) with true by (symmetry; apply Nat.ltb_lt; rewrite app_length; lia).
    rewrite (skipn_len pre t) by reflexivity.
    change t with (name ++ w1 ++ [c_eq] ++ w2 ++ c_quote :: v ++ [c_quote] ++ sep ++ rest) at 1. rewrite (field_first name w1 w2 c_quote) by (assumption || reflexivity). cbn [m_end].
    unfold m_group at 1. cbn [m_caps cap_get option_map Nat.eqb]. assert (slice 0 (length name) t = name) as ES by (unfold t; apply slice0). rewrite ES.
    set (st := length pre + (length name + length w1 + 1 + length w2)).
    assert (skipn st (pre ++ t) = [c_quote] ++ v ++ c_quote :: sep ++ rest) as E1.
    { unfold st, t. replace (pre ++ name ++ w1 ++ [c_eq] ++ w2 ++ [c_quote] ++ v ++ [c_quote] ++ sep ++ rest) with
        ((pre ++ name ++ w1 ++ [c_eq] ++ w2) ++ [c_quote] ++ v ++ c_quote :: sep ++ rest) by (rewrite <- !app_assoc; reflexivity).
      apply skipn_len. rewrite !app_length. cbn [length]. lia. }
    rewrite !E1. change (startswith (lstrip ([c_quote] ++ v ++ c_quote :: sep ++ rest)) [c_lb]) with false.
    rewrite (quote_first v (sep ++ rest) Q). cbn [m_end]. unfold m_group. cbn [m_caps cap_get option_map Nat.eqb].
    replace (slice 1 (1 + length v) ([c_quote] ++ v ++ c_quote :: sep ++ rest)) with v.
    2:{ unfold slice. cbn [List.app skipn]. replace (1 + length v - 1) with (length v) by lia. symmetry. apply firstn_app_exact. reflexivity. }
    assert (skipn (st + (length v + 2)) (pre ++ t) = sep ++ rest) as E2.
    { rewrite <- skipn_add, E1. replace ([c_quote] ++ v ++ c_quote :: sep ++ rest) with (([c_quote] ++ v ++ [c_quote]) ++ sep ++ rest) by (rewrite <- !app_assoc; reflexivity).
      apply skipn_len. rewrite !app_length. cbn [length]. lia. }
    rewrite E2, (nsep_app sep rest S (field_list_head _ _ F)).
    replace (pre ++ t) with ((pre ++ name ++ w1 ++ [c_eq] ++ w2 ++ [c_quote] ++ v ++ [c_quote] ++ sep) ++ rest) by (unfold t; rewrite <- !app_assoc; reflexivity).
    replace (st + (length v + 2) + length sep) with (length (pre ++ name ++ w1 ++ [c_eq] ++ w2 ++ [c_quote] ++ v ++ [c_quote] ++ sep))
      by (unfold st; rewrite !app_length; cbn [length]; lia).
    rewrite IH; [rewrite ?ES; reflexivity|]. unfold t in Hf. rewrite !app_length in Hf. cbn [length] in Hf. lia.
Qed.

(** * The entries *)
Lemma entry_minlen : 0 < minlen EntryPattern.
Proof. cbn. lia. Qed.
Notation iter := (iter_at EntryPattern).
Lemma no_at_none : forall t pos, head_no (N.eqb c_at) (skipn pos t) -> re_match_at EntryPattern t pos = None.
Proof.
  intros t pos H. unfold re_match_at, BibTexPattern. cbn [rseq]. rewrite rm_seq_none; [reflexivity|]. apply rm_chr_none. exact H.
Qed.
Lemma iter_skip : forall t junk pos r, skipn pos t = junk ++ r -> ~ In c_at junk -> iter t pos = iter t (pos + length junk).
Proof.
  intros t. induction junk as [|x junk IH]; intros pos r E N; [cbn [length]; rewrite Nat.add_0_r; reflexivity|].
  pose proof (skipn_cons_lt _ _ _ _ E) as L. rewrite iter_at_step; [|exact entry_minlen|exact L].
  rewrite no_at_none.
  - cbn [length]. replace (pos + S (length junk)) with (S pos + length junk) by lia. apply (IH _ r); [eapply skipn_S_tl; exact E|]. intros I. apply N. right. exact I.
  - rewrite E. cbn [List.app head_no]. apply N.eqb_neq. intros <-. apply N. left. reflexivity.
Qed.
Lemma entry_match : forall t pos ty ws r, skipn pos t = [c_at] ++ ty ++ ws ++ c_lb :: r -> word isword ty -> blank ws ->
  re_match_at EntryPattern t pos = Some {| m_start := pos; m_end := pos + 1 + length ty + length ws + 1; m_caps := [(1, (pos + 1, pos + 1 + length ty))] |}.
Proof.
  intros t pos ty ws r E (NE & FW) W. apply fm_match. unfold BibTexPattern. cbn [rseq].
  cbn [List.app] in E. pose proof (skipn_more1 _ _ _ _ E) as E1. pose proof (skipn_more _ _ _ _ E1) as E2. pose proof (skipn_more _ _ _ _ E2) as E3.
  replace (pos + 1 + length ty) with (S pos + length ty) by lia. replace (pos + 1) with (S pos) by lia.
  eapply fm_seq; [eapply fm_is_ch; exact E|].
  eapply fm_seq; [apply fm_grp; eapply fm_plus; [exact E1|exact NE|exact FW|]|].
  { apply (blank_head isword ws); [exact W|exact space_not_word|]. apply not_word. cbn. tauto. }
  eapply fm_seq; [eapply fm_star; [exact E2|exact W|reflexivity]|].
  replace (S pos + length ty + length ws + 1) with (S (S pos + length ty + length ws)) by lia.
  eapply fm_is_ch; exact E3.
Qed.
Lemma find_char_app : forall c a b, ~ In c a -> find_char c (a ++ c :: b) = Some (length a).
Proof.
  induction a as [|x a IH]; intros b N; cbn [List.app find_char length]; [rewrite N.eqb_refl; reflexivity|].
  rewrite (proj2 (N.eqb_neq x c)) by (intros ->; apply N; left; reflexivity). rewrite IH by (intros I; apply N; right; exact I). reflexivity.
Qed.
Lemma strip_len : forall s, length (strip s) <= length s.
Proof. intros s. destruct (strip_split s) as (w1 & w2 & E & _). apply (f_equal (@List.length ch)) in E. rewrite !app_length in E. lia. Qed.

Definition entry_of (x : str * str * list (str * str)) : bibtex_entry :=
  let '(ty, key, fs) := x in
  {| bx_type := lower ty; bx_key := key; bx_fields := fields_dict lower fs; bx_content := convert_fields (lower ty) key (fields_dict lower fs) |}.

Lemma file_ok : forall s es, bib_file isword s es -> forall t pos fuel, skipn pos t = s -> length t < fuel ->
  parse_matches isword lower fuel t (iter t pos) = Some (map entry_of es).
Proof.
  induction 1 as [s N|junk ty ws key body fs rest es NJ WT WS NK NAK NAB B C F BF IH]; intros t pos fuel E Hf.
  - rewrite (iter_skip t s pos []) by (rewrite ?app_nil_r; assumption). rewrite iter_at_end; [reflexivity|exact entry_minlen|].
    apply (f_equal (@List.length ch)) in E. rewrite skipn_length in E. lia.
  - rewrite (iter_skip t junk pos _ E NJ). pose proof (skipn_more _ _ _ _ E) as E1. set (p := pos + length junk) in *.
    pose proof E1 as E1'. cbn [List.app] in E1'. pose proof (skipn_cons_lt _ _ _ _ E1') as L.
    rewrite iter_at_step; [|exact entry_minlen|exact L].
    rewrite (entry_match t p ty ws (key ++ [c_comma] ++ body ++ [c_rb] ++ rest) E1 WT WS). cbn [m_end].
    assert (skipn (p + 1 + length ty + length ws + 1) t = (key ++ [c_comma] ++ body ++ [c_rb]) ++ rest) as E2.
    { replace (p + 1 + length ty + length ws + 1) with (p + length ([c_at] ++ ty ++ ws ++ [c_lb])) by (rewrite !app_length; cbn [length]; lia).
      apply skipn_more. rewrite E1. rewrite <- !app_assoc. reflexivity. }
    rewrite (iter_skip t _ _ _ E2).
    2:{ rewrite !in_app_iff. intros [I|[I|[I|I]]]; [contradiction| |contradiction|]; destruct I as [I|[]]; discriminate. }
    pose proof (skipn_more _ _ _ _ E2) as E3. cbn [parse_matches]. rewrite (IH t _ fuel E3 Hf).
    unfold parse_entry. cbn [m_end]. unfold m_group. cbn [m_caps cap_get option_map Nat.eqb].
    replace (slice (p + 1) (p + 1 + length ty) t) with ty.
    2:{ unfold slice. replace (p + 1 + length ty - (p + 1)) with (length ty) by lia. replace (p + 1) with (p + length [c_at]) by reflexivity.
        rewrite (skipn_more _ _ [c_at] _ E1). symmetry. apply firstn_app_exact. reflexivity. }
    assert (skipn (p + 1 + length ty + length ws + 1 - 1) t = c_lb :: (key ++ [c_comma] ++ body) ++ c_rb :: rest) as E4.
    { replace (p + 1 + length ty + length ws + 1 - 1) with (p + length ([c_at] ++ ty ++ ws)) by (rewrite !app_length; cbn [length]; lia).
      apply skipn_more. rewrite E1. rewrite <- !app_assoc. reflexivity. }
    rewrite E4.
    assert (extract_nested_content (c_lb :: (key ++ [c_comma] ++ body) ++ c_rb :: rest) c_lb c_rb = (Some (key ++ [c_comma] ++ body), length (key ++ [c_comma] ++ body) + 2)) as EX.
    { apply extract_nested_content_iff; [exact delims_curly|]. exists [], rest. split; [reflexivity|]. split; [reflexivity|]. split; [exact B|]. split; [exact C|]. cbn [length]. lia. }
    rewrite EX. cbn [List.app]. rewrite (find_char_app c_comma key body NK).
    rewrite (firstn_app_exact key) by reflexivity.
    assert (skipn (S (length key)) (key ++ c_comma :: body) = body) as E5.
    { replace (key ++ c_comma :: body) with ((key ++ [c_comma]) ++ body) by (rewrite <- app_assoc; reflexivity). apply skipn_len. rewrite app_length. cbn [length]. lia. }
    rewrite E5. pose proof (fields_ok (strip body) fs F [] [] fuel) as FO. cbn [List.app length] in FO. rewrite FO.
    + reflexivity.
    + pose proof (strip_len body). apply (f_equal (@List.length ch)) in E4. rewrite skipn_length in E4. cbn [length] in E4. rewrite !app_length in E4. cbn [length] in E4. lia.
Qed.

Lemma c50_entries : forall convert content es, bib_file isword content es -> is_compiled_bibtex content = false ->
  exists fuel, bibtex_parse isword lower convert fuel content = Some (map entry_of es).
Proof.
  intros convert content es F NC. exists (S (length content)). unfold bibtex_parse. rewrite NC.
  change (re_finditer EntryPattern content) with (iter content 0). apply (file_ok _ _ F); [reflexivity|lia].
Qed.
End Bib.
