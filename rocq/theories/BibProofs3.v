From Coq Require Import List NArith ZArith PeanoNat Lia Bool String.
From Verif Require Import PyStr Regex TexUtilsModel DelimSpec DelimProofs DelimFinal KeyvalModel BibModel BibSpec BibProofs BibProofs2.
Import ListNotations. Notation length := List.length. Notation concat := List.concat. Open Scope list_scope.

Lemma bal_app : forall o c a b, balanced o c a -> balanced o c b -> balanced o c (a ++ b).
Proof.
  intros o c a b A B. induction A as [|x e r Hx A IH|r1 r2 A1 IH1 A2 IH2]; cbn [List.app]; [exact B|constructor; assumption|].
  rewrite <- app_assoc. cbn [List.app]. constructor; assumption.
Qed.
Lemma bal_free : forall o c m, Forall (fun p => fst p <> o /\ fst p <> c) m -> balanced o c m.
Proof. induction 1 as [|[x e] m H F IH]; constructor; auto. Qed.
(** text without braces *)
Definition braceless (s : str) : Prop := ~ In c_lb s /\ ~ In c_rb s.
Lemma bal_mark_free : forall s e, braceless s -> balanced c_lb c_rb (mark e s).
Proof.
  intros s e [N1 N2]. apply bal_free. apply Forall_forall. intros [x b] I. cbn. apply (in_map fst) in I. rewrite mark_fst in I. cbn in I.
  split; intros ->; contradiction.
Qed.
Lemma esc_nonbs : forall s x e, x <> c_bs -> esc_end e (s ++ [x]) = false.
Proof. intros s x e H. rewrite esc_end_app. cbn [esc_end]. rewrite (proj2 (N.eqb_neq _ _) H). reflexivity. Qed.

Section Round.
Variable isword : ch -> bool.
Variable lower : str -> str.
Hypothesis Hword : word_class isword.

Definition good_field (kv : str * str) : Prop :=
  word isword (fst kv) /\ balanced c_lb c_rb (marks (snd kv)) /\ closes_after (snd kv) /\ strip (snd kv) = snd kv /\ ~ In c_at (snd kv).
Definition field_text (kv : str * str) : str := fst kv ++ lit "={" ++ snd kv ++ lit "}".
Definition fsep : str := lit "," ++ [c_nl; c_tab].
Lemma fields_join : forall fs, Forall good_field fs -> field_list isword (join fsep (map field_text fs)) fs.
Proof.
  intros fs F. induction F as [|[k v] fs (Wk & B & C & S & A) F IH]; [constructor|]. cbn [fst snd] in *.
  assert (forall sep rest, separators sep -> field_list isword rest fs -> field_list isword (field_text (k, v) ++ sep ++ rest) ((k, v) :: fs)) as H.
  { intros sep rest HS HR. pose proof (fl_brace isword k [] [] v sep rest fs Wk eq_refl eq_refl B C HS HR) as P. rewrite S in P.
    unfold field_text. cbn [fst snd]. rewrite <- !app_assoc. exact P. }
  destruct fs as [|kv2 fs].
  - cbn [map join]. specialize (H [] [] eq_refl (fl_nil _)). rewrite !app_nil_r in H. exact H.
  - cbn [map] in *. rewrite join_cons by discriminate. apply H; [reflexivity|exact IH].
Qed.

Lemma word_free : forall s, forallb isword s = true -> braceless s /\ ~ In c_bs s /\ ~ In c_at s.
Proof.
  intros s H. rewrite forallb_forall in H.
  assert (forall x, In x (lit "=,@{}\") -> ~ In x s) as N.
  { intros x I J. destruct (Hword x (H _ J)) as (_ & K & _). contradiction. }
  repeat split; apply N; cbn; tauto.
Qed.
Lemma esc_nobs : forall s e, ~ In c_bs s -> s <> [] -> esc_end e s = false.
Proof.
  intros s e N NE. destruct s as [|x s] using rev_ind; [contradiction|]. apply esc_nonbs. intros ->. apply N, in_or_app. right. left. reflexivity.
Qed.
Lemma field_text_bal : forall kv e, good_field kv -> balanced c_lb c_rb (mark e (field_text kv)) /\ esc_end e (field_text kv) = false.
Proof.
  intros [k v] e ((NE & W) & B & C & _). cbn [fst snd] in *. destruct (word_free _ W) as (FB & NB & _).
  unfold field_text. cbn [fst snd]. rewrite !mark_app, !esc_end_app. rewrite (esc_nobs k e NB NE).
  apply closes_after_esc in C.
  change (esc_end false (lit "={")) with false. rewrite C. change (esc_end false (lit "}")) with false. split; [|reflexivity].
  change (mark false (lit "={")) with [(c_eq, false); (c_lb, false)]. change (mark false (lit "}")) with [(c_rb, false)].
  apply bal_app; [apply bal_mark_free; exact FB|]. cbn [List.app].
  apply bal_char; [right; split; discriminate|]. apply bal_group; [exact B|constructor].
Qed.
Lemma join_bal : forall fs e, Forall good_field fs -> balanced c_lb c_rb (mark e (join fsep (map field_text fs))).
Proof.
  intros fs e F. revert e. induction F as [|kv fs G F IH]; intros e; [constructor|]. destruct (field_text_bal kv e G) as [B E].
  destruct fs as [|kv2 fs]; [exact B|]. cbn [map]. rewrite join_cons by discriminate. rewrite !mark_app, E.
  apply bal_app; [exact B|]. apply bal_app; [apply bal_mark_free; split; intros I; cbn in I; intuition discriminate|]. apply IH.
Qed.
Lemma join_noat : forall fs, Forall good_field fs -> ~ In c_at (join fsep (map field_text fs)).
Proof.
  intros fs F. induction F as [|[k v] fs G F IH]; [intros []|].
  assert (~ In c_at (field_text (k, v))) as N.
  { destruct G as ((_ & W) & _ & _ & _ & A). cbn [fst snd] in *. destruct (word_free _ W) as (_ & _ & NA). unfold field_text. cbn [fst snd]. rewrite !in_app_iff. cbn. intuition discriminate. }
  destruct fs as [|kv2 fs]; [exact N|]. cbn [map] in *. rewrite join_cons by discriminate. rewrite !in_app_iff. cbn in *. intuition discriminate.
Qed.
Lemma strip_body : forall s, (s = [] \/ exists x r y q, s = x :: r /\ s = q ++ [y] /\ isspace x = false /\ isspace y = false) ->
  strip ([c_nl; c_tab] ++ s ++ [c_nl]) = s.
Proof.
  intros s [->|(x & r & y & q & E1 & E2 & X & Y)]; [reflexivity|]. unfold strip. rewrite lstrip_ws_app by reflexivity.
  rewrite E1 at 1. cbn [List.app]. rewrite lstrip_id by exact X. change (x :: r ++ [c_nl]) with ((x :: r) ++ [c_nl]). rewrite <- E1. unfold rstrip.
  rewrite rev_app_distr. cbn [rev List.app]. rewrite E2 at 1. rewrite rev_app_distr. cbn [rev List.app lstrip]. change (isspace c_nl) with true. cbv iota. rewrite Y.
  rewrite E2. cbn [rev]. rewrite rev_involutive. reflexivity.
Qed.
Lemma join_ends : forall fs, Forall good_field fs -> join fsep (map field_text fs) = [] \/
  exists x r y q, join fsep (map field_text fs) = x :: r /\ join fsep (map field_text fs) = q ++ [y] /\ isspace x = false /\ isspace y = false.
Proof.
  intros fs F. destruct F as [|[k v] fs G F]; [left; reflexivity|]. right.
  assert (exists q, join fsep (map field_text ((k, v) :: fs)) = q ++ [c_rb]) as (q & Eq).
  { clear G. revert k v. induction F as [|[k2 v2] fs G F IH]; intros k v.
    - exists (k ++ lit "={" ++ v). cbn [map join]. unfold field_text. cbn [fst snd]. rewrite <- !app_assoc. reflexivity.
    - destruct (IH k2 v2) as (q & E). cbn [map] in *. rewrite join_cons by discriminate. rewrite E. exists (field_text (k, v) ++ fsep ++ q). rewrite <- !app_assoc. reflexivity. }
  destruct G as ((NE & W) & _). cbn [fst] in *. destruct k as [|x k]; [contradiction|]. cbn in W. apply andb_true_iff in W. destruct W as [Wx _].
  assert (exists r, join fsep (map field_text ((x :: k, v) :: fs)) = x :: r) as (r & Er).
  { destruct fs as [|kv2 fs]; [eexists; reflexivity|]. cbn [map]. rewrite join_cons by discriminate. eexists. reflexivity. }
  exists x, r, c_rb, q. split; [exact Er|]. split; [exact Eq|]. split; [apply (Hword x Wx)|reflexivity].
Qed.

Definition good_entry (ty key : str) (fs : list (str * str)) : Prop :=
  word isword ty /\ ~ In c_comma key /\ ~ In c_at key /\ balanced c_lb c_rb (marks key) /\ strip key = key /\ Forall good_field fs.
Lemma convert_is_file : forall ty key fs, good_entry ty key fs -> bib_file isword (convert_fields ty key fs) [(ty, key, fs)].
Proof.
  intros ty key fs (Wt & NC & NA & B & S & F). set (body := [c_nl; c_tab] ++ join fsep (map field_text fs) ++ [c_nl]).
  assert (strip body = join fsep (map field_text fs)) as SB by (apply strip_body, join_ends, F).
  pose proof (bf_entry isword [] ty [] key body fs [] []) as P. rewrite S in P.
  replace (convert_fields ty key fs) with ([] ++ [c_at] ++ ty ++ [] ++ [c_lb] ++ key ++ [c_comma] ++ body ++ [c_rb] ++ []).
  2:{ unfold convert_fields, body. rewrite <- !app_assoc. reflexivity. }
  apply P; clear P; try assumption; try reflexivity.
  - intros [].
  - unfold body. rewrite !in_app_iff. pose proof (join_noat fs F). cbn. intuition discriminate.
  - rewrite !mark_app. apply bal_app; [exact B|]. apply bal_app; [apply bal_mark_free; split; intros I; cbn in I; intuition discriminate|].
    unfold body. rewrite !mark_app. apply bal_app; [apply bal_mark_free; split; intros I; cbn in I; intuition discriminate|].
    apply bal_app; [apply join_bal; exact F|]. apply bal_mark_free; split; intros I; cbn in I; intuition discriminate.
  - apply closes_after_esc. unfold body. rewrite !app_assoc. apply esc_nonbs. discriminate.
  - rewrite SB. apply fields_join, F.
  - constructor. intros [].
Qed.

Lemma sset_new : forall k v d, ~ In k (map fst d) -> sset k v d = d ++ [(k, v)].
Proof.
  induction d as [|[k' w] d IH]; cbn; intros N; [reflexivity|]. destruct (str_eqb k k') eqn:E.
  - apply str_eqb_spec in E. exfalso. apply N. left. congruence.
  - rewrite IH by tauto. reflexivity.
Qed.
Lemma dict_id : forall fs, NoDup (map fst fs) -> Forall (fun kv => lower (fst kv) = fst kv) fs -> fields_dict lower fs = fs.
Proof.
  intros fs N F. unfold fields_dict.
  assert (forall fs acc, NoDup (map fst (acc ++ fs)) -> Forall (fun kv => lower (fst kv) = fst kv) fs ->
    fold_left (fun d kv => sset (lower (fst kv)) (snd kv) d) fs acc = acc ++ fs) as G.
  { clear. induction fs as [|[k v] fs IH]; intros acc N F; cbn [fold_left]; [symmetry; apply app_nil_r|].
    inversion F as [|? ? E F']; subst. cbn [fst snd] in *. rewrite E. rewrite map_app in N. pose proof (NoDup_remove_2 _ _ _ N) as N2.
    rewrite sset_new by (intros I; apply N2, in_or_app; left; exact I). rewrite IH; [rewrite <- app_assoc; reflexivity| |exact F'].
    rewrite <- app_assoc. rewrite map_app. exact N. }
  apply (G fs []); assumption.
Qed.
Lemma c50_roundtrip : forall convert ty key fs, good_entry ty key fs -> lower ty = ty -> NoDup (map fst fs) ->
  Forall (fun kv => lower (fst kv) = fst kv) fs -> is_compiled_bibtex (convert_fields ty key fs) = false ->
  exists fuel, bibtex_parse isword lower convert fuel (convert_fields ty key fs) =
    Some [{| bx_type := ty; bx_key := key; bx_fields := fs; bx_content := convert_fields ty key fs |}].
Proof.
  intros convert ty key fs G L N F NC. destruct (c50_entries isword lower Hword convert _ _ (convert_is_file _ _ _ G) NC) as (fuel & E).
  exists fuel. rewrite E. cbn [map entry_of]. rewrite L, dict_id by assumption. reflexivity.
Qed.
End Round.
