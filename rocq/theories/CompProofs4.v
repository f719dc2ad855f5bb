(** C108: files; C109: reading the printed entries. *)
From Coq Require Import List NArith ZArith PeanoNat Lia Bool String.
From Verif Require BibProofs BibProofs2 BibProofs3 BibParserProofs ParseFinal.
From Verif Require Import PyStr Regex RegexLemmas RegexHead RegexLocal DelimSpec DelimProofs DelimFinal EqProofs StyleSpec ItemSpec CommandSpec KeyvalModel BibModel BibSpec BibitemSpec CompModel CompSpec CompProofs CompProofs2 CompProofs3.
Import ListNotations. Notation length := List.length. Notation concat := List.concat. Open Scope list_scope.
Local Notation fm := RegexHead.first_match.
Lemma heads_entry : heads compiled_pattern (lit "\entry{").
Proof. unfold compiled_pattern. cbn [rseq]. apply heads_seq. Qed.
Lemma entry_match : forall t p body rest, skipn p t = lit "\entry{" ++ body ++ lit "\endentry" ++ rest -> ~ occurs (lit "\endentry") body ->
  re_match_at compiled_pattern t p = Some {| m_start := p; m_end := p + 7 + length body + 9; m_caps := [] |}.
Proof.
  intros t p body rest E No. apply fm_match. unfold compiled_pattern. cbn [rseq]. eapply fm_seq; [apply (fm_rstr (lit "\entry{") _ _ _ _ E)|]. change (length (lit "\entry{")) with 7. pose proof (skipn_more _ _ _ _ E) as E1. change (length (lit "\entry{")) with 7 in E1. set (i := p + 7) in *.
  set (K := rstr (lit "\endentry")).
  assert (Z : forall k c', k < length body -> rm K t (i + k) c' = []).
  { intros k c' Lk. apply rm_none_rel; [apply (f_equal (@List.length ch)) in E1; rewrite skipn_length, !app_length in E1; change (length (lit "\endentry")) with 9 in E1; lia|]. intros j R. apply rel_rstr in R as (_ & q & Eq). rewrite <- skipn_add, E1 in Eq.
    rewrite <- (firstn_skipn k body) in Eq at 1. rewrite <- app_assoc in Eq. rewrite skipn_app_exact in Eq by (rewrite firstn_length; lia).
    apply (absent_word (lit "\endentry") body (lit "\endentry" ++ rest)) with (a1 := firstn k body) (a2 := skipn k body) (q := q); [discriminate|exact No| | | |exact Eq].
    - intros x r Er. injection Er as <- _. cbn. intuition discriminate.
    - symmetry. apply firstn_skipn.
    - intros N. apply (f_equal (@List.length ch)) in N. rewrite skipn_length in N. cbn [List.length] in N. change (length body - k = 0) in N. lia. }
  destruct (fm_rstr (lit "\endentry") t (i + length body) [] rest (skipn_more _ _ _ _ E1)) as (l & F). fold K in F.
  unfold first_match. change (rm (RSeq (rlazy rany) K) t i []) with (flat_map (fun jc : nat * caps => rm K t (fst jc) (snd jc)) (rm (rlazy rany) t i [])). unfold rany. rewrite rm_lazy_chr, flat_map_map. cbn [fst snd].
  assert (Lr : length body <= runlen (fun _ => true) (skipn i t)). { rewrite E1. clear. induction body as [|y v IH]; [cbn; lia|]. cbn [List.app runlen List.length]. lia. }
  replace (S (runlen (fun _ => true) (skipn i t))) with (length body + S (runlen (fun _ => true) (skipn i t) - length body)) by lia. rewrite seq_app, flat_map_app.
  rewrite (flat_map_nil _ _ (fun k => rm K t (i + k) []) (seq 0 (length body))) by (intros k Hk; apply in_seq in Hk; apply Z; lia). cbn [List.app seq flat_map plus]. rewrite F. eexists. reflexivity.
Qed.
Section Any.
Variable isword : ch -> bool.
Hypothesis W : BibSpec.word_class isword.
Hypothesis Hl : forall x, letter x -> isword x = true.
Definition entry_out (c : compiled) : str := bib_text (c_type c) (c_key c) (arranged (the_fields c)).
Definition converted (t : str) (m : mobj) : list str := match parse_compiled_bibtex_entry isword (m_group0 t m) with Some e => [convert_to_regular_bibtex e] | None => [] end.
Lemma file_read : forall s cs, compiled_file isword s cs -> Forall no_clash cs -> forall t pos, pos <= length t -> skipn pos t = s ->
  flat_map (converted t) (iter_at compiled_pattern t pos) = map entry_out cs.
Proof.
  intros s cs F. induction F as [junk No|junk body text c rest cs No Nb X S F IH]; intros NC t pos L E.
  - rewrite (iter_nowhere compiled_pattern (lit "\entry{")) with (s := junk); [reflexivity|cbn; lia|apply heads_entry|discriminate|exact L|exact E|exact No].
  - rewrite (iter_absent compiled_pattern (lit "\entry{")) with (a := junk) (rest := lit "\entry{" ++ body ++ lit "\endentry" ++ rest); [|cbn; lia|apply heads_entry|exact E|].
    2: { apply absent_word; [discriminate|exact No|]. intros x r Er. injection Er as <- _. cbn. intuition discriminate. }
    pose proof (skipn_more _ _ _ _ E) as E1. set (p := pos + length junk) in *. assert (Lp : p < length t) by (eapply skipn_cons_lt; exact E1). rewrite iter_at_step; [|cbn; lia|exact Lp].
    rewrite (entry_match t p body rest E1 Nb). cbn [flat_map m_end]. inversion NC as [|? ? N1 N2]; subst.
    assert (G : m_group0 t {| m_start := p; m_end := p + 7 + length body + 9; m_caps := [] |} = lit "\entry{" ++ body ++ lit "\endentry").
    { unfold m_group0. cbn [m_start m_end]. unfold slice. rewrite E1. rewrite (app_assoc body), (app_assoc (lit "\entry{")). apply firstn_app_exact. rewrite !app_length. change (length (lit "\entry{")) with 7. change (length (lit "\endentry")) with 9. lia. }
    unfold converted at 1. rewrite G, (entry_read isword W Hl _ _ _ X S N1). rewrite (convert_ok _ _ _ (the_nodup c) (the_clash c N1)). cbn [map List.app]. f_equal.
    pose proof (skipn_more _ _ _ _ (skipn_more _ _ _ _ (skipn_more _ _ _ _ E1))) as E2. change (length (lit "\entry{")) with 7 in E2. change (length (lit "\endentry")) with 9 in E2.
    apply IH; [exact N2| |exact E2]. apply (f_equal (@List.length ch)) in E1. rewrite skipn_length, !app_length in E1. change (length (lit "\entry{")) with 7 in E1. change (length (lit "\endentry")) with 9 in E1. lia.
Qed.
Lemma c108_file : forall content cs, compiled_file isword content cs -> Forall no_clash cs -> process_compiled_bibtex_to_bibtex isword content = map entry_out cs.
Proof. intros content cs F N. unfold process_compiled_bibtex_to_bibtex. change (re_finditer compiled_pattern content) with (iter_at compiled_pattern content 0). apply (file_read _ _ F N); [lia|reflexivity]. Qed.
Lemma file_compiled : forall content cs, compiled_file isword content cs -> cs <> [] -> is_compiled_bibtex content = true.
Proof.
  intros content cs F N. destruct F as [|junk body text c rest cs]; [congruence|]. apply BibParserProofs.compiled_iff. exists junk, body, rest. reflexivity.
Qed.
(** * Reading *)
Definition ftext (kv : str * str) : str := fst kv ++ lit " = {" ++ snd kv ++ lit "}".
Definition trimmed (kv : str * str) : str * str := (fst kv, strip (snd kv)).
Fixpoint ftexts (fs : list (str * str)) : str := match fs with [] => [] | kv :: fs => ftext kv ++ (match fs with [] => lit "," | _ => lit "," ++ [10%N] ++ lit "  " ++ ftexts fs end) end.
Lemma ftexts_fields : forall fs, Forall (readable_field isword) fs -> field_list isword (ftexts fs) (map trimmed fs).
Proof.
  intros fs F. induction F as [|[k v] fs (Wk & (B & C) & A) F IH]; [constructor|]. cbn [fst snd map ftexts] in *.
  assert (H : forall sep rest out, separators sep -> field_list isword rest out -> field_list isword (ftext (k, v) ++ sep ++ rest) (trimmed (k, v) :: out)).
  { intros sep rest out HS HR. pose proof (fl_brace isword k (lit " ") (lit " ") v sep rest out Wk eq_refl eq_refl B C HS HR) as P.
    unfold ftext, trimmed. cbn [fst snd]. rewrite <- !app_assoc. exact P. }
  destruct fs as [|kv2 fs].
  - specialize (H (lit ",") [] [] eq_refl (fl_nil _)). rewrite app_nil_r in H. exact H.
  - apply (H (lit "," ++ [10%N] ++ lit "  ") (ftexts (kv2 :: fs)) _ eq_refl IH).
Qed.
Definition flines (fs : list (str * str)) : str := concat (map (fun kv => lit "  " ++ fst kv ++ lit " = {" ++ snd kv ++ lit "}," ++ [10%N]) fs).
Lemma flines_texts : forall kv fs, flines (kv :: fs) = lit "  " ++ ftexts (kv :: fs) ++ [10%N].
Proof.
  intros kv fs. revert kv. induction fs as [|kv2 fs IH]; intros kv; unfold flines in *; cbn [map concat ftexts] in *.
  - unfold ftext. rewrite <- !app_assoc. reflexivity.
  - rewrite IH. unfold ftext. rewrite <- !app_assoc. reflexivity.
Qed.
Lemma ftexts_last : forall kv fs, exists q, ftexts (kv :: fs) = q ++ [c_comma].
Proof.
  intros kv fs. revert kv. induction fs as [|kv2 fs IH]; intros kv.
  - exists (ftext kv). reflexivity.
  - destruct (IH kv2) as (q & E). exists (ftext kv ++ lit "," ++ [10%N] ++ lit "  " ++ q). change (ftexts (kv :: kv2 :: fs)) with (ftext kv ++ lit "," ++ [10%N] ++ lit "  " ++ ftexts (kv2 :: fs)). rewrite E, <- !app_assoc. reflexivity.
Qed.
Lemma flines_strip : forall fs, Forall (readable_field isword) fs -> strip ([10%N] ++ flines fs) = ftexts fs.
Proof.
  intros fs F. destruct F as [|[k v] fs ((Nk & Wk) & _) F]; [reflexivity|]. rewrite flines_texts. destruct (ftexts_last (k, v) fs) as (q & Eq). cbn [fst] in *.
  assert (Er : exists x r, ftexts ((k, v) :: fs) = x :: r /\ isspace x = false).
  { destruct k as [|x k]; [congruence|]. cbn in Wk. apply andb_true_iff in Wk as [Wx _]. apply W in Wx as (Wx & _). exists x. eexists. split; [reflexivity|exact Wx]. }
  destruct Er as (x & r & Er & Wx). set (X := ftexts ((k, v) :: fs)) in *.
  change ([10%N] ++ lit "  " ++ X ++ [10%N]) with (([10%N] ++ lit "  ") ++ X ++ [10%N]).
  unfold strip. rewrite lstrip_ws_app by reflexivity. rewrite Er. cbn [List.app]. rewrite lstrip_id by exact Wx. change (x :: r ++ [10%N]) with ((x :: r) ++ [10%N]). rewrite <- Er, Eq. unfold rstrip.
  rewrite !rev_app_distr. cbn [rev List.app lstrip]. change (isspace 10%N) with true. change (isspace c_comma) with false. cbv iota. cbn [rev]. rewrite rev_involutive. reflexivity.
Qed.
Lemma flines_bal : forall fs e, Forall (readable_field isword) fs -> balanced c_lb c_rb (mark e (flines fs)).
Proof.
  intros fs e F. revert e. induction F as [|[k v] fs ((Nk & Wk) & (B & C) & A) F IH]; intros e; [constructor|]. unfold flines in *. cbn [map concat fst snd] in *. destruct (BibProofs3.word_free isword (fun s => s) W k Wk) as (FB & NB & _).
  rewrite !mark_app, !esc_end_app. rewrite (BibProofs3.esc_nobs (lit "  ") e) by (cbn; intuition discriminate). rewrite (BibProofs3.esc_nobs k false NB Nk). change (esc_end false (lit " = {")) with false.
  apply closes_after_esc in C. rewrite C. change (esc_end false (lit "},")) with false. change (esc_end false [10%N]) with false.
  repeat rewrite <- ?app_assoc. apply BibProofs3.bal_app; [apply BibProofs3.bal_mark_free; split; cbn; intuition discriminate|]. apply BibProofs3.bal_app; [apply BibProofs3.bal_mark_free; exact FB|].
  change (mark false (lit " = {")) with [(32%N, false); (c_eq, false); (32%N, false); (c_lb, false)]. change (mark false (lit "},")) with [(c_rb, false); (c_comma, false)].
  cbn [List.app]. do 3 (apply bal_char; [right; split; discriminate|]). apply bal_group; [exact B|]. apply bal_char; [right; split; discriminate|].
  apply BibProofs3.bal_app; [apply BibProofs3.bal_mark_free; split; cbn; intuition discriminate|]. apply IH.
Qed.
Lemma flines_noat : forall fs, Forall (readable_field isword) fs -> ~ In c_at (flines fs).
Proof.
  intros fs F. induction F as [|[k v] fs ((Nk & Wk) & _ & A) F IH]; [intros []|]. unfold flines in *. cbn [map concat fst snd] in *. destruct (BibProofs3.word_free isword (fun s => s) W k Wk) as (_ & _ & NA).
  rewrite !in_app_iff. change (~ In c_at v) in A. cbn. intuition discriminate.
Qed.
Lemma printed_file : forall ty key fs rest es, word isword ty -> ~ In c_comma key -> ~ In 64%N key -> balanced c_lb c_rb (marks key) -> Forall (readable_field isword) fs -> bib_file isword rest es ->
  bib_file isword (bib_text ty key fs ++ rest) ((ty, strip key, map trimmed fs) :: es).
Proof.
  intros ty key fs rest es Wt NC NA B F R. pose proof (bf_entry isword [] ty [] key ([10%N] ++ flines fs) (map trimmed fs) rest es) as P.
  replace (bib_text ty key fs ++ rest) with ([] ++ [c_at] ++ ty ++ [] ++ [c_lb] ++ key ++ [c_comma] ++ ([10%N] ++ flines fs) ++ [c_rb] ++ rest).
  2: { unfold bib_text, flines. rewrite <- !app_assoc. reflexivity. }
  apply P; clear P; try assumption; try reflexivity.
  - intros [].
  - rewrite in_app_iff. pose proof (flines_noat fs F). cbn. intuition discriminate.
  - rewrite !mark_app. apply BibProofs3.bal_app; [exact B|]. apply BibProofs3.bal_app; [apply BibProofs3.bal_mark_free; split; cbn; intuition discriminate|].
    apply BibProofs3.bal_app; [apply BibProofs3.bal_mark_free; split; cbn; intuition discriminate|]. apply flines_bal. exact F.
  - apply closes_after_esc. destruct fs as [|kv fs]; [unfold flines; cbn [map concat]; rewrite app_nil_r, app_assoc; apply BibProofs3.esc_nonbs; discriminate|]. rewrite flines_texts, !app_assoc. apply BibProofs3.esc_nonbs. discriminate.
  - rewrite flines_strip by exact F. apply ftexts_fields. exact F.
Qed.
Lemma file_junk : forall x s es, x <> c_at -> bib_file isword s es -> bib_file isword (x :: s) es.
Proof.
  intros x s es N F. destruct F as [s A|junk ty ws key body fs rest es A].
  - constructor. intros [I|I]; [congruence|contradiction].
  - apply (bf_entry isword (x :: junk)); try assumption. intros [I|I]; [congruence|contradiction].
Qed.
Lemma arranged_in : forall fs kv, In kv (arranged fs) -> In kv fs.
Proof.
  intros fs kv I. unfold arranged in I. apply in_app_or in I as [I|I]; [|apply filter_In in I as (I & _); exact I]. apply in_flat_map in I as (k & _ & I). apply filter_In in I as (I & _). exact I.
Qed.
Lemma puts_from : forall fs d kv, In kv (fold_left put fs d) -> In kv d \/ In kv fs \/ exists a b, (In a d \/ In a fs) /\ In b fs /\ fst kv = fst a /\ snd kv = snd b.
Proof.
  assert (S1 : forall k v d kv, In kv (sset k v d) -> In kv d \/ (kv = (k, v)) ).
  { intros k v. induction d as [|[k' w] d IH]; intros kv I; cbn [sset] in I; [destruct I as [<-|[]]; right; reflexivity|]. destruct (str_eqb k k') eqn:E.
    - apply str_eqb_spec in E. subst k'. destruct I as [<-|I]; [right; reflexivity|left; right; exact I].
    - destruct I as [<-|I]; [left; left; reflexivity|]. apply IH in I as [I|I]; [left; right; exact I|right; exact I]. }
  induction fs as [|[a b] fs IH]; intros d kv I; [left; exact I|]. cbn [fold_left] in I. apply IH in I as [I|[I|(x & y & X & Y & Ea & Eb)]].
  - unfold put in I. cbn [fst snd] in I. apply S1 in I as [I| ->]; [left; exact I|right; left; left; reflexivity].
  - right. left. right. exact I.
  - right. right. exists x, y. split; [|split; [right; exact Y|split; assumption]]. destruct X as [X|X]; [|right; right; exact X]. unfold put in X. cbn [fst snd] in X. apply S1 in X as [X| ->]; [left; exact X|right; left; reflexivity].
Qed.
Lemma the_readable : forall c, Forall (readable_field isword) (all_fields c) -> Forall (readable_field isword) (arranged (the_fields c)).
Proof.
  intros c F. rewrite Forall_forall in *. intros kv I. apply arranged_in in I. apply (puts_from (all_fields c) []) in I as [[]|[I|([a1 a2] & [b1 b2] & [[]|Ia] & Ib & Ea & Eb)]]; [apply F; exact I|].
  destruct kv as [k v]. cbn [fst snd] in *. subst k v. destruct (F _ Ia) as (X & _). destruct (F _ Ib) as (_ & Y). split; assumption.
Qed.
Lemma outs_file : forall cs, Forall (readable isword) cs -> bib_file isword (join [c_nl] (map entry_out cs)) (map (fun c => (c_type c, strip (c_key c), map trimmed (arranged (the_fields c)))) cs).
Proof.
  intros cs F. induction F as [|c cs (Wt & NC & NA & B & R) F IH]; [constructor; intros []|]. cbn [map].
  destruct cs as [|c2 cs].
  - cbn [map join]. rewrite <- (app_nil_r (entry_out c)). apply printed_file; [exact Wt|exact NC|exact NA|exact B|apply the_readable; exact R|constructor; intros []].
  - change (join [c_nl] (entry_out c :: map entry_out (c2 :: cs))) with (entry_out c ++ [c_nl] ++ join [c_nl] (map entry_out (c2 :: cs))). apply printed_file; [exact Wt|exact NC|exact NA|exact B|apply the_readable; exact R|]. apply file_junk; [discriminate|exact IH].
Qed.
Definition ref_of (e : bibtex_entry) : str * str * list (str * str) := (bx_type e, bx_key e, bx_fields e).
Lemma c109_read : forall lower content cs, compiled_file isword content cs -> cs <> [] -> Forall no_clash cs -> Forall (readable isword) cs ->
  exists fuel es, bibtex_parse isword lower (process_compiled_bibtex_to_bibtex isword) fuel content = Some es /\ map ref_of es = map (reference lower) cs.
Proof.
  intros lower content cs F Ne NC R. set (text := join [c_nl] (map entry_out cs)). pose proof (outs_file cs R) as BF. fold text in BF.
  exists (S (length text)). eexists. split.
  - unfold bibtex_parse. rewrite (file_compiled _ _ F Ne), (c108_file _ _ F NC). cbv zeta. fold text. apply (BibProofs2.file_ok isword lower W text _ BF text 0 (S (length text))); [reflexivity|lia].
  - rewrite !map_map. apply map_ext. intros c. reflexivity.
Qed.
End Any.
