(** Proofs for C79: saved boxes. *)
From Coq Require Import List NArith PeanoNat Lia Bool String.
From Verif Require Import PyStr Regex RegexLemmas RegexHead Json TexUtilsModel DelimSpec DelimProofs DelimProofs2 TextModel TextSpec TextProofs2 BuilderModel ContentModel BibProofs3 CommandModel CommandSpec CommandProofs CommandProofs2 CommandProofs6 CommandProofs8 BoxModel BoxSpec BoxProofs.
Import ListNotations. Notation length := List.length. Open Scope list_scope.

(** ** Names *)
Lemma word_chars : forall x y, word x -> In y x -> word_char y.
Proof. intros x y [H _] I. rewrite Forall_forall in H. auto. Qed.
Lemma word_not : forall x y, word x -> In y x -> y <> c_lb /\ y <> c_rb /\ y <> c_bs /\ isspace y = false.
Proof.
  intros x y W I. apply (word_chars _ _ W) in I. pose proof (proj2 (name_ch_spec y) I) as N. repeat split; try (intros ->; discriminate N).
  destruct (isspace y) eqn:E; [|reflexivity]. rewrite (space_not_name _ E) in N. discriminate.
Qed.
Lemma blank_not : forall ws y, blank ws -> In y ws -> y <> c_lb /\ y <> c_rb /\ y <> c_bs.
Proof. intros ws y B I. unfold blank in B. rewrite forallb_forall in B. apply B in I. repeat split; intros ->; discriminate I. Qed.
Lemma mark_chars : forall s e q, In q (mark e s) -> In (fst q) s.
Proof. induction s as [|x s IH]; intros e q H; [destruct H|]. cbn [mark] in H. destruct H as [<-|H]; [left; reflexivity|right; eapply IH; exact H]. Qed.
Lemma free_balanced : forall s, (forall y, In y s -> y <> c_lb /\ y <> c_rb) -> balanced c_lb c_rb (marks s).
Proof. intros s H. apply bal_free. apply Forall_forall. intros q Q. apply H. eapply mark_chars. exact Q. Qed.
Lemma closes_last : forall s y, y <> c_bs -> closes_after (s ++ [y]).
Proof. intros s y H. exists 0. split; [constructor; exact H|exists 0; reflexivity]. Qed.
Lemma inside_closes : forall (a x b : str), word x -> blank b -> closes_after (a ++ x ++ b).
Proof.
  intros a x b W B. destruct (rev b) as [|y q] eqn:E.
  - apply (f_equal (@rev ch)) in E. rewrite rev_involutive in E. cbn in E. subst b. rewrite app_nil_r. destruct W as [W (a' & z & -> & Hz)].
    rewrite app_assoc. apply closes_last. intros ->. unfold is_letter, c_bs in Hz. destruct Hz as [[H1 H2]|[H1 H2]]; [apply H1; reflexivity|apply H2; reflexivity].
  - apply (f_equal (@rev ch)) in E. rewrite rev_involutive in E. cbn in E. subst b. rewrite !app_assoc. apply closes_last.
    apply (blank_not (rev q ++ [y]) y B). apply in_or_app. right. left. reflexivity.
Qed.
Lemma word_trimmed : forall x, word x -> strip x = x.
Proof. intros x W. apply strip_nospace. intros y I. apply (word_not x y W I). Qed.
Lemma no_lb : forall x, word x -> existsb (N.eqb c_lb) x = false.
Proof.
  intros x W. destruct (existsb (N.eqb c_lb) x) eqn:E; [|reflexivity]. apply existsb_exists in E as (y & I & E). apply N.eqb_eq in E. subst y.
  destruct (word_not _ _ W I) as (H & _). congruence.
Qed.
Lemma strip_around : forall a s b, blank a -> blank b -> s <> [] -> (forall y, In y s -> isspace y = false) -> strip (a ++ s ++ b) = s.
Proof.
  intros a s b A B N H. apply strip_app_blank; try assumption. split.
  - destruct s as [|y s]; [congruence|]. intros z r E. injection E as <- _. apply H. left. reflexivity.
  - intros z r E. apply H. rewrite E. apply in_or_app. right. left. reflexivity.
Qed.
Lemma varname : forall x s rest, word x -> spelled x s rest -> parse_varname s = x.
Proof.
  intros x s rest W Sp. destruct Sp as [a b rest A B|a b rest A B|rest R].
  - change (lit "{" ++ a ++ [c_bs] ++ x ++ b ++ lit "}") with (c_lb :: a ++ (c_bs :: x) ++ b ++ [c_rb]). unfold parse_varname. cbv beta iota zeta. rewrite N.eqb_refl.
    assert (G : group_at c_lb c_rb (c_lb :: a ++ (c_bs :: x) ++ b ++ [c_rb]) (a ++ (c_bs :: x) ++ b) (0 + 1 + length (a ++ (c_bs :: x) ++ b) + 1)).
    { exists [], []. repeat split.
      - cbn [List.app]. f_equal. repeat (rewrite <- app_assoc || rewrite <- app_comm_cons). reflexivity.
      - apply free_balanced. intros y I. apply in_app_or in I as [I|I]; [split; apply (blank_not _ _ A I)|]. apply in_app_or in I as [[<-|I]|I]; [split; discriminate|split; apply (word_not _ _ W I)|split; apply (blank_not _ _ B I)].
      - replace (a ++ (c_bs :: x) ++ b) with ((a ++ [c_bs]) ++ x ++ b) by (rewrite <- app_assoc; reflexivity). apply inside_closes; assumption. }
    apply extract_nested_content_iff in G; [|exact delims_curly]. rewrite G.
    assert (St : strip (a ++ (c_bs :: x) ++ b) = c_bs :: x). { apply strip_around; auto; [discriminate|]. intros y [<-|I]; [reflexivity|apply (word_not _ _ W I)]. }
    destruct (a ++ (c_bs :: x) ++ b) as [|y q] eqn:E; [destruct a; discriminate|]. rewrite St, N.eqb_refl, no_lb by exact W. reflexivity.
  - change (lit "{" ++ a ++ x ++ b ++ lit "}") with (c_lb :: a ++ x ++ b ++ [c_rb]). unfold parse_varname. cbv beta iota zeta. rewrite N.eqb_refl.
    assert (G : group_at c_lb c_rb (c_lb :: a ++ x ++ b ++ [c_rb]) (a ++ x ++ b) (0 + 1 + length (a ++ x ++ b) + 1)).
    { exists [], []. repeat split.
      - cbn [List.app]. f_equal. rewrite <- !app_assoc. reflexivity.
      - apply free_balanced. intros y I. apply in_app_or in I as [I|I]; [split; apply (blank_not _ _ A I)|]. apply in_app_or in I as [I|I]; [split; apply (word_not _ _ W I)|split; apply (blank_not _ _ B I)].
      - apply inside_closes; assumption. }
    apply extract_nested_content_iff in G; [|exact delims_curly]. rewrite G.
    assert (St : strip (a ++ x ++ b) = x). { apply strip_around; auto; [apply word_nonempty; exact W|]. intros y I. apply (word_not _ _ W I). }
    destruct (a ++ x ++ b) as [|y q] eqn:E. { exfalso. apply (word_nonempty _ W). destruct a; [destruct x; [reflexivity|discriminate]|discriminate]. }
    rewrite St. destruct x as [|z x]; [destruct (word_nonempty _ W); reflexivity|]. destruct (word_not _ z W (or_introl eq_refl)) as (_ & _ & Z & _). apply N.eqb_neq in Z. rewrite Z, no_lb by exact W. reflexivity.
  - unfold parse_varname. cbn [List.app]. change (N.eqb c_bs c_lb) with false. cbv iota. rewrite N.eqb_refl, no_lb by exact W. reflexivity.
Qed.

(** ** Matching a name *)
Lemma fm_name_spelled : forall g x s rest (t : str) i c, 2 <= g -> word x -> spelled x s rest -> skipn i t = s ++ rest ->
  exists n p, n <> 1 /\ n <> 0 /\ first_match (command_or_brace g) t i c (i + length s) ((n, p) :: c).
Proof.
  intros g x s rest t i c Lg W Sp E.
  assert (Br : forall v : str, v <> [] -> (forall y, In y v -> y <> c_rb) -> s = c_lb :: v ++ [c_rb] -> exists n p, n <> 1 /\ n <> 0 /\ first_match (command_or_brace g) t i c (i + length s) ((n, p) :: c)).
  { intros v NE NB Es. exists g. eexists. split; [lia|]. split; [lia|]. unfold command_or_brace. apply fm_alt_left. unfold rseq. rewrite Es in E. cbn [List.app] in E.
    eapply fm_seq; [apply (fm_is_ch c_lb t i c _ E)|]. apply skipn_more1 in E. rewrite <- app_assoc in E.
    eapply fm_seq; [apply fm_grp; apply (fm_plus (fun y => negb (N.eqb y c_rb)) t (Datatypes.S i) c v _ E NE)|].
    - apply forallb_forall. intros y Y. apply negb_true_iff, N.eqb_neq. apply NB. exact Y.
    - reflexivity.
    - apply skipn_more in E. replace (i + length s) with (Datatypes.S (Datatypes.S i + length v)) by (rewrite Es; cbn [length]; rewrite app_length; cbn [length]; lia).
      apply (fm_is_ch c_rb t _ _ rest). exact E. }
  destruct Sp as [a b rest A B|a b rest A B|rest R].
  - apply (Br (a ++ [c_bs] ++ x ++ b)).
    + destruct a; discriminate.
    + intros y I. apply in_app_or in I as [I|I]; [apply (blank_not _ _ A I)|]. cbn [List.app] in I. destruct I as [<-|I]; [discriminate|]. apply in_app_or in I as [I|I]; [apply (word_not _ _ W I)|apply (blank_not _ _ B I)].
    + cbn [lit List.app]. change (lit "{" ++ a ++ [c_bs] ++ x ++ b ++ lit "}") with (c_lb :: a ++ c_bs :: x ++ b ++ [c_rb]). f_equal. repeat (rewrite <- app_assoc || rewrite <- app_comm_cons). reflexivity.
  - apply (Br (a ++ x ++ b)).
    + intros H. apply (word_nonempty _ W). destruct a; [destruct x; [reflexivity|discriminate]|discriminate].
    + intros y I. apply in_app_or in I as [I|I]; [apply (blank_not _ _ A I)|]. apply in_app_or in I as [I|I]; [apply (word_not _ _ W I)|apply (blank_not _ _ B I)].
    + change (lit "{" ++ a ++ x ++ b ++ lit "}") with (c_lb :: a ++ x ++ b ++ [c_rb]). f_equal. rewrite <- !app_assoc. reflexivity.
  - exists (Datatypes.S g). eexists. split; [lia|]. split; [lia|]. unfold command_or_brace. apply fm_alt_right.
    + unfold rseq. apply rm_seq_none. unfold is_ch. apply rm_chr_none. rewrite E. reflexivity.
    + cbn [List.app length]. apply (fm_name (Datatypes.S g) t i c x rest); try assumption. 
Qed.
Lemma spelled_head : forall x s rest, spelled x s rest -> exists y r, s = y :: r /\ isspace y = false /\ isdigit y = false.
Proof. intros x s rest [a b r A B|a b r A B|r R]; eexists; eexists; repeat split. Qed.

(** the saved-box pattern *)
Lemma saved_names : forall k, In k [lit "usebox"; lit "sbox"; lit "savebox"; lit "newsavebox"; lit "newbox"] ->
  forall r, first_match (ralt [nm "usebox"; nm "sbox"; nm "savebox"; nm "newsavebox"; nm "newbox"]) (c_bs :: k ++ r) 1 [] (1 + length k) [].
Proof. intros k H r. cbn [In] in H. repeat (destruct H as [<-|H]; [vm_compute; eexists; reflexivity|]). destruct H. Qed.
Lemma saved_match : forall k ws x s rest, In k [lit "usebox"; lit "sbox"; lit "savebox"; lit "newsavebox"; lit "newbox"] -> blank ws -> word x -> spelled x s rest ->
  let t := c_bs :: k ++ ws ++ s ++ rest in
  exists m, re_match_at SAVED_BOX_PATTERN t 0 = Some m /\ m_end m = length (c_bs :: k ++ ws ++ s) /\ grp t 1 m = k /\ grp t 2 m = s.
Proof.
  intros k ws x s rest H B W Sp t.
  assert (E : skipn (1 + length k) t = ws ++ s ++ rest). { unfold t. cbn [Nat.add skipn]. rewrite skipn_app, skipn_all, Nat.sub_diag. reflexivity. }
  pose proof (skipn_more _ _ _ _ E) as E2. destruct (spelled_head _ _ _ Sp) as (y & q & Es & Y & _).
  destruct (fm_name_spelled 3 x s rest t (1 + length k + length ws) [(1, (1, 1 + length k))]) as (n & p & N1 & N0 & F); try assumption; [lia|].
  eexists. split; [apply fm_match; unfold SAVED_BOX_PATTERN; eapply fm_seq; [apply (fm_is_ch c_bs t 0 [] (k ++ ws ++ s ++ rest)); reflexivity|]|].
  - eapply fm_seq; [apply fm_grp; apply (saved_names k H)|]. eapply fm_seq; [apply (fm_star isspace t _ _ ws (s ++ rest) E B)|].
    + rewrite Es. exact Y.
    + apply fm_grp. exact F.
  - split; [|split].
    + cbn [m_end length]. rewrite !app_length. lia.
    + unfold grp, m_group, m_span. cbn [m_caps cap_get Nat.eqb]. apply Nat.eqb_neq in N1. rewrite Nat.eqb_sym, N1 || rewrite N1. cbn [option_map]. unfold slice, t. replace (1 + length k - 1) with (length k) by lia. cbn [skipn].
      rewrite firstn_app, Nat.sub_diag, firstn_all. cbn. apply app_nil_r.
    + unfold grp, m_group, m_span. cbn [m_caps cap_get Nat.eqb option_map]. unfold slice. rewrite E2. replace (1 + length k + length ws + length s - (1 + length k + length ws)) with (length s) by lia.
      rewrite firstn_app, Nat.sub_diag, firstn_all. cbn. apply app_nil_r.
Qed.
(** the setbox pattern *)
Lemma setbox_match : forall ws x s ws2 rest ws3 y r, blank ws -> word x -> spelled x s (ws2 ++ lit "=" ++ rest) -> blank ws2 -> rest = ws3 ++ y :: r -> blank ws3 -> isspace y = false ->
  let t := lit "\setbox" ++ ws ++ s ++ ws2 ++ lit "=" ++ rest in
  exists m, re_match_at SETBOX_PATTERN t 0 = Some m /\ m_end m = length (lit "\setbox" ++ ws ++ s ++ ws2 ++ lit "=" ++ ws3) /\ grp t 1 m = s.
Proof.
  intros ws x s ws2 rest ws3 y r B W Sp B2 Er B3 Y t.
  assert (E : skipn (0 + length (lit "\setbox")) t = ws ++ s ++ ws2 ++ lit "=" ++ rest) by reflexivity.
  pose proof (skipn_more _ _ _ _ E) as E2. destruct (spelled_head _ _ _ Sp) as (z & q & Es & Z & Dz).
  destruct (fm_name_spelled 2 x s (ws2 ++ lit "=" ++ rest) t (0 + length (lit "\setbox") + length ws) []) as (n & p & N1 & N0 & F); try assumption; [lia|].
  pose proof (skipn_more _ _ _ _ E2) as E3. pose proof (skipn_more _ _ _ _ E3) as E4. pose proof (skipn_more1 _ _ 61%N _ E4) as E5. rewrite Er in E5.
  eexists. split; [apply fm_match; unfold SETBOX_PATTERN, nm; eapply fm_seq; [apply (fm_rstr (lit "\setbox") t 0 [] (ws ++ s ++ ws2 ++ lit "=" ++ rest)); reflexivity|]|].
  - eapply fm_seq; [apply (fm_star isspace t _ _ ws _ E B)|]. { rewrite Es. exact Z. }
    eapply fm_seq; [apply fm_grp; apply fm_alt_right; [|exact F]|].
    { unfold rplus. apply rm_seq_none. unfold rdigit. apply rm_chr_none. rewrite E2, Es. exact Dz. }
    eapply fm_seq; [apply (fm_star isspace t _ _ ws2 _ E3 B2)|]. { reflexivity. }
    eapply fm_seq; [apply (fm_is_ch 61%N t _ _ _ E4)|]. apply (fm_star isspace t _ _ ws3 _ E5 B3). exact Y.
  - split.
    + cbn [m_end]. rewrite !app_length. change (length (lit "=")) with 1. lia.
    + unfold grp, m_group, m_span. cbn [m_caps cap_get Nat.eqb option_map]. unfold slice. rewrite E2. replace (0 + length (lit "\setbox") + length ws + length s - (0 + length (lit "\setbox") + length ws)) with (length s) by lia.
      rewrite firstn_app, Nat.sub_diag, firstn_all. cbn. apply app_nil_r.
Qed.

(** ** One command *)
Section Pure.
Variable p : str -> val.
Definition pure (st : boxes) (s : str) : boxes * res val := (st, Ok (p s)).
Lemma saved_no_setbox : forall k, In k [lit "usebox"; lit "sbox"; lit "savebox"; lit "newsavebox"; lit "newbox"] -> forall r, re_match_at SETBOX_PATTERN (c_bs :: k ++ r) 0 = None.
Proof. intros k H r. cbn [In] in H. repeat (destruct H as [<-|H]; [vm_compute; reflexivity|]). destruct H. Qed.
Lemma one_group : forall rest b n, group_at c_lb c_rb rest b n -> extract_delimited_args rest [c_lb] = ([Some b], n).
Proof.
  intros rest b n G. apply args_complete.
  - replace n with (n + 0) by lia. constructor; [exact G|constructor].
  - exists []. reflexivity.
  - intros d [<-|[]]. left. reflexivity.
Qed.
Definition effect (c : command) (st : boxes) : boxes * val :=
  match c with
  | Declare x => (save x VNone st, VNone)
  | Save x b => (save x (kept (p b)) st, VNone)
  | Use x => (st, get x (saved st))
  end.
Lemma skip_pre : forall (a r : str), skipn (length a) (a ++ r) = r.
Proof. intros a r. rewrite skipn_app, skipn_all, Nat.sub_diag. reflexivity. Qed.
Section Any.
Variable process : boxes -> str -> boxes * res val.
Definition outcome (c : command) (st : boxes) : boxes * res val :=
  match c with
  | Declare x => (save x VNone st, Ok VNone)
  | Save x b => match process st b with (st1, Ok v) => (save x (kept v) st1, Ok VNone) | (st1, Raise e) => (st1, Raise e) end
  | Use x => (st, Ok (get x (saved st)))
  end.
Lemma command_any : forall c t n st, written c t n -> handle process st t = (fst (outcome c st), match snd (outcome c st) with Ok v => Ok (v, n) | Raise e => Raise e end).
Proof.
  intros c t n st Wr. destruct Wr as [k ws x s rest K B W Sp|k ws x s rest b n K B W Sp G|ws x s ws2 rest b n B W Sp B2 G|ws x s rest B W Sp].
  - assert (exists k', k = c_bs :: k' /\ In k' [lit "usebox"; lit "sbox"; lit "savebox"; lit "newsavebox"; lit "newbox"] /\ startswith k' (lit "new") = true) as (k' & -> & K1 & K2).
    { destruct K as [<-|[<-|[]]]; eexists; (split; [reflexivity|]); split; try reflexivity; cbn; auto 10. }
    cbn [List.app]. destruct (saved_match k' ws x s rest K1 B W Sp) as (m & M & L & G1 & G2). cbn zeta in *.
    unfold handle. rewrite saved_no_setbox by exact K1. rewrite M. unfold handle_saved. rewrite G1, G2, K2, (varname _ _ _ W Sp), L. reflexivity.
  - assert (exists k', k = c_bs :: k' /\ In k' [lit "usebox"; lit "sbox"; lit "savebox"; lit "newsavebox"; lit "newbox"] /\ startswith k' (lit "new") = false /\ str_eqb k' (lit "sbox") || str_eqb k' (lit "savebox") = true) as (k' & -> & K1 & K2 & K3).
    { destruct K as [<-|[<-|[]]]; eexists; (split; [reflexivity|]); split; try (split; reflexivity); cbn; auto 10. }
    cbn [List.app]. destruct (saved_match k' ws x s rest K1 B W Sp) as (m & M & L & G1 & G2). cbn zeta in *.
    unfold handle. rewrite saved_no_setbox by exact K1. rewrite M. unfold handle_saved. rewrite G1, G2, K2, K3, (varname _ _ _ W Sp), L.
    assert (Sk : skipn (length (c_bs :: k' ++ ws ++ s)) (c_bs :: k' ++ ws ++ s ++ rest) = rest).
    { replace (c_bs :: k' ++ ws ++ s ++ rest) with ((c_bs :: k' ++ ws ++ s) ++ rest) by (cbn; rewrite <- !app_assoc; reflexivity). apply skip_pre. }
    rewrite Sk, (one_group _ _ _ G). cbn [outcome]. destruct (process st b) as [st1 [v|e]]; reflexivity.
  - destruct G as (ws3 & q & Er & B3 & Bal & Cl & En). pose proof (setbox_match ws x s ws2 rest ws3 c_lb (b ++ c_rb :: q) B W Sp B2 Er B3 eq_refl) as (m & M & L & G1). cbn zeta in *.
    unfold handle. rewrite M. unfold handle_setbox. rewrite G1, L.
    assert (Ss : strip s = s). { destruct Sp as [a b0 r0 A Bb|a b0 r0 A Bb|r0 R].
      - change (lit "{" ++ a ++ [c_bs] ++ x ++ b0 ++ lit "}") with (c_lb :: a ++ [c_bs] ++ x ++ b0 ++ [c_rb]).
        replace (c_lb :: a ++ [c_bs] ++ x ++ b0 ++ [c_rb]) with (c_lb :: (a ++ [c_bs] ++ x ++ b0) ++ [c_rb]) by (rewrite <- !app_assoc; reflexivity). apply strip_id2; reflexivity.
      - change (lit "{" ++ a ++ x ++ b0 ++ lit "}") with (c_lb :: a ++ x ++ b0 ++ [c_rb]).
        replace (c_lb :: a ++ x ++ b0 ++ [c_rb]) with (c_lb :: (a ++ x ++ b0) ++ [c_rb]) by (rewrite <- !app_assoc; reflexivity). apply strip_id2; reflexivity.
      - apply strip_nospace. intros y [<-|I]; [reflexivity|]. apply (word_not _ _ W I). }
    rewrite Ss. destruct (spelled_head _ _ _ Sp) as (z & q' & Es & Z & Dz).
    assert (St : (match s with x0 :: _ => if forallb isdigit s then fun (v : val) (st0 : boxes) => save_number (match int_of_str s with Some n0 => n0 | None => 0 end) v st0 else save (parse_varname s) | [] => save (parse_varname s) end) = save x).
    { rewrite (varname _ _ _ W Sp). rewrite Es. cbn [forallb]. rewrite Dz. reflexivity. }
    rewrite St. clear St.
    set (t := lit "\setbox" ++ ws ++ s ++ ws2 ++ lit "=" ++ rest).
    assert (Sk : skipn (length (lit "\setbox" ++ ws ++ s ++ ws2 ++ lit "=" ++ ws3)) t = c_lb :: b ++ c_rb :: q).
    { unfold t. rewrite Er. replace (lit "\setbox" ++ ws ++ s ++ ws2 ++ lit "=" ++ ws3 ++ c_lb :: b ++ c_rb :: q) with ((lit "\setbox" ++ ws ++ s ++ ws2 ++ lit "=" ++ ws3) ++ c_lb :: b ++ c_rb :: q) by (rewrite <- !app_assoc; reflexivity). apply skip_pre. }
    rewrite Sk. cbn [nlead]. change (isspace c_lb) with false. cbv iota. rewrite Nat.add_0_r, Sk.
    assert (NB : re_match_at BOX_PATTERN (c_lb :: b ++ c_rb :: q) 0 = None) by reflexivity. rewrite NB.
    assert (G' : group_at c_lb c_rb (c_lb :: b ++ c_rb :: q) b (0 + 1 + length b + 1)). { exists [], q. repeat split; assumption. }
    rewrite (one_group _ _ _ G'). cbn [outcome]. destruct (process st b) as [st1 [v|e]]; [|reflexivity]. cbn [fst snd]. f_equal. f_equal. f_equal. rewrite En, !app_length. lia.
  - destruct (saved_match (lit "usebox") ws x s rest) as (m & M & L & G1 & G2); try assumption. { left. reflexivity. } cbn zeta in *.
    change (lit "\usebox" ++ ws ++ s ++ rest) with (c_bs :: lit "usebox" ++ ws ++ s ++ rest). unfold handle. rewrite saved_no_setbox by (left; reflexivity). rewrite M. unfold handle_saved.
    rewrite G1, G2, (varname _ _ _ W Sp), L. reflexivity.
Qed.

End Any.
Lemma command_step : forall c t n st, written c t n -> handle pure st t = (fst (effect c st), Ok (snd (effect c st), n)).
Proof. intros c t n st Wr. rewrite (command_any pure c t n st Wr). destruct c; reflexivity. Qed.

(** ** A history *)
Definition shows (h : list command) (st : boxes) : Prop :=
  forall x o, holds x h o -> get x (saved st) = match o with Some b => kept (p b) | None => VNone end.
Lemma shows_step : forall h st c, shows h st -> shows (c :: h) (fst (effect c st)).
Proof.
  intros h st c H x o Ho. inversion Ho as [|h0 E|b h0 E|c0 h0 o0 N1 N2 Hh E]; subst.
  - cbn [effect fst]. unfold save. cbn [saved]. apply get_set_same.
  - cbn [effect fst]. unfold save. cbn [saved]. apply get_set_same.
  - destruct c as [y|y b|y]; cbn [effect fst].
    + unfold save. cbn [saved]. rewrite get_set_other; [apply H; exact Hh|]. intros ->. apply N1. reflexivity.
    + unfold save. cbn [saved]. rewrite get_set_other; [apply H; exact Hh|]. intros ->. apply (N2 b). reflexivity.
    + apply H. exact Hh.
Qed.
Lemma holds_total : forall x h, exists o, holds x h o.
Proof.
  intros x h. induction h as [|c h (o & IH)]; [exists None; constructor|]. destruct c as [y|y b|y].
  - destruct (list_eq_dec N.eq_dec y x) as [->|N]; [exists None; constructor|exists o; constructor; congruence || exact IH].
  - destruct (list_eq_dec N.eq_dec y x) as [->|N]; [exists (Some b); constructor|exists o; constructor; congruence || exact IH].
  - exists o. constructor; [discriminate|discriminate|exact IH].
Qed.
Lemma history : forall cs ts ns h st out, Forall2 (fun c '(t, n) => written c t n) cs (combine ts ns) -> length ts = length ns -> shows h st ->
  answers p h cs ns out -> snd (handle_all pure st ts) = out.
Proof.
  induction cs as [|c cs IH]; intros ts ns h st out F L Sh A.
  - inversion F as [E|]; subst. destruct ts as [|t ts]; [inversion A; subst; reflexivity|]. destruct ns; discriminate.
  - destruct ts as [|t ts]; [inversion F|]. destruct ns as [|n ns]; [inversion F|]. cbn [combine] in F. inversion F as [|? ? ? ? Wr F']; subst.
    cbn [handle_all]. rewrite (command_step _ _ _ st Wr). pose proof (shows_step h st c Sh) as Sh'.
    destruct (handle_all pure (fst (effect c st)) ts) as [st2 os] eqn:E. cbn [snd].
    inversion A as [|h0 x o cs0 n0 ns0 out0 Ho A'|h0 c0 cs0 n0 ns0 out0 Nu A']; subst.
    + f_equal; [cbn [effect snd]; rewrite (Sh _ _ Ho); reflexivity|].
      specialize (IH ts ns (Use x :: h) _ out0 F' ltac:(cbn in L; lia) Sh' A'). rewrite E in IH. exact IH.
    + f_equal; [destruct c; [reflexivity|reflexivity|destruct (Nu x); reflexivity]|].
      specialize (IH ts ns (c :: h) _ out0 F' ltac:(cbn in L; lia) Sh' A'). rewrite E in IH. exact IH.
Qed.
Lemma shows_empty : shows [] no_boxes.
Proof. intros x o H. inversion H. reflexivity. Qed.
Lemma answers_total : forall cs h ns, length ns = length cs -> exists out, answers p h cs ns out.
Proof.
  induction cs as [|c cs IH]; intros h ns L; destruct ns as [|n ns]; try discriminate; [eexists; constructor|].
  injection L as L. destruct (IH (c :: h) ns L) as (out & A). destruct c as [x|x b|x].
  - eexists. apply an_other; [discriminate|exact A].
  - eexists. apply an_other; [discriminate|exact A].
  - destruct (holds_total x h) as (o & Ho). eexists. apply an_use; [exact Ho|exact A].
Qed.
End Pure.
(** A text that is saved may itself save boxes: they are kept. *)
Lemma save_keeps : forall process st st1 x b t n v, written (Save x b) t n -> process st b = (st1, Ok v) ->
  exists st2, handle process st t = (st2, Ok (VNone, n)) /\ get x (saved st2) = kept v /\ forall y, y <> x -> get y (saved st2) = get y (saved st1).
Proof.
  intros process st st1 x b t n v Wr P. exists (save x (kept v) st1). rewrite (command_any process _ _ _ st Wr). cbn [outcome]. rewrite P. split; [reflexivity|]. unfold save. cbn [saved].
  split; [apply get_set_same|]. intros y N. apply get_set_other. exact N.
Qed.
