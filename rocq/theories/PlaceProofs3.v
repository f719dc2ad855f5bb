From Coq Require Import List NArith ZArith PeanoNat Lia Bool String.
From Verif Require Import PyStr Regex RegexLemmas RegexLocal RegexHead Json TexUtilsModel BuilderModel FactoryModel TableModel Placeholder PlaceModel PlaceSpec PlaceProofs.
Import ListNotations.
Notation length := List.length.
Notation concat := List.concat.
Open Scope list_scope.

Definition rW := lit "`|REF_".
Definition rkey (i : nat) : str := str_of_nat i ++ lit "|`".
Definition rclean (t : str) : Prop := ~ occurs (lit "|REF_") t.
Lemma ref_key_split : forall i, ref_key i = placeholder rW rkey i.
Proof. reflexivity. Qed.
Lemma rkey_prefix : forall i j r s, rkey i ++ r = rkey j ++ s -> i = j.
Proof. intros i j r s E. unfold rkey in E. rewrite <- !app_assoc in E. cbn [lit list_ascii_of_string map app] in E. eapply num_cut in E; [exact E|reflexivity|reflexivity]. Qed.
Lemma rclean_text : forall t, rclean t -> ~ occurs rW t.
Proof. intros t H O. apply H. apply (occurs_suffix (lit "`")) in O. exact O. Qed.
Lemma rclean_gap : forall i t, rclean t -> ~ occurs rW (rkey i ++ t).
Proof.
  intros i t H O. unfold rkey in O. replace ((str_of_nat i ++ lit "|`") ++ t) with ((str_of_nat i ++ [124%N]) ++ 96%N :: t) in O by (rewrite <- !app_assoc; reflexivity).
  apply occurs_head_out in O.
  - apply occurs_cons in O as [(q & O)|O]; [|apply rclean_text in H; apply H; exact O]. apply H. exists [], q. cbn in O. injection O as O. exact O.
  - intros C. apply in_app_or in C as [C|[C|[]]]; [apply num_digit in C; discriminate|discriminate C].
Qed.

Definition shown (tok : nat -> dict) (t0 : str) (segs : list (nat * str * str)) : list dict :=
  text_chunk t0 ++ flat_map (fun s => tok (fst (fst s)) :: text_chunk (snd s)) segs.
Fixpoint increasing (a : nat) (segs : list (nat * str * str)) : Prop :=
  match segs with [] => True | s :: r => a <= fst (fst s) /\ increasing (S (fst (fst s))) r end.
Lemma increasing_ge : forall segs a s, increasing a segs -> In s segs -> a <= fst (fst s).
Proof. induction segs as [|x r IH]; intros a s H Hin; [destruct Hin|]. destruct H as [H1 H2]. destruct Hin as [->|Hin]; [exact H1|]. specialize (IH _ _ H2 Hin). lia. Qed.
Lemma increasing_le : forall segs a b, b <= a -> increasing a segs -> increasing b segs.
Proof. intros [|s r] a b L H; [exact I|]. destruct H. split; [lia|assumption]. Qed.
Lemma chunks_shown : forall tok n a t0 segs, increasing a segs -> (forall s, In s segs -> fst (fst s) < a + n) -> rclean t0 -> (forall s, In s segs -> rclean (snd s)) ->
  reference_chunks (map (fun i => (ref_key i, tok i)) (seq a n)) (with_placeholders rW rkey t0 segs) = shown tok t0 segs.
Proof.
  intros tok. assert (BW : borderless rW) by (apply borderless_ok; reflexivity). assert (NW : rW <> []) by discriminate.
  induction n as [|n IH]; intros a t0 segs Hi Hb H0 Hc.
  - destruct segs as [|s r]; [cbn; unfold shown; cbn; rewrite app_nil_r; reflexivity|]. exfalso. specialize (Hb s (or_introl eq_refl)). destruct Hi as [Hi _]. lia.
  - cbn [seq map reference_chunks]. rewrite ref_key_split. destruct segs as [|[[i b] t] r].
    + rewrite (find_none rW BW NW rkey rkey_prefix rclean rclean_gap rclean_text a [] t0) by (intros; try contradiction; assumption).
      apply IH; [exact I|intros s []|exact H0|intros s []].
    + destruct (Nat.eq_dec i a) as [->|Ne].
      * rewrite (find_first rW BW NW rkey) by (apply rclean_text; exact H0).
        unfold shown. cbn [flat_map fst snd with_placeholders]. rewrite firstn_app, Nat.sub_diag, firstn_all. cbn [firstn]. rewrite app_nil_r.
        rewrite skipn_app, skipn_all2 by lia. replace (length t0 + length (placeholder rW rkey a) - length t0) with (length (placeholder rW rkey a)) by lia.
        rewrite skipn_app, skipn_all, Nat.sub_diag. cbn [app skipn]. rewrite IH.
        -- reflexivity.
        -- destruct Hi as [_ Hi]. exact Hi.
        -- intros s Hs. specialize (Hb s (or_intror Hs)). lia.
        -- apply (Hc (a, b, t)). left. reflexivity.
        -- intros s Hs. apply Hc. right. exact Hs.
      * assert (Hi' : increasing (S a) ((i, b, t) :: r)). { destruct Hi as [H1 H2]. cbn [fst] in H1. split; [cbn; lia|exact H2]. }
        rewrite (find_none rW BW NW rkey rkey_prefix rclean rclean_gap rclean_text a ((i, b, t) :: r) t0); [|intros j b' t' Hin|exact H0].
        -- apply IH; try assumption. intros s Hs. specialize (Hb s Hs). lia.
        -- split; [|apply (Hc _ Hin)]. pose proof (increasing_ge _ _ _ Hi' Hin) as G. cbn in G. lia.
Qed.

(** what flatten_tokens writes *)
Lemma plain_dec : forall t, well_formed t ->
  (exists s, plain_text t s /\ forall k r, flatten_go k (t :: r) = do rest <- flatten_go k r; Ok (s ++ fst rest, snd rest)) \/
  ((forall s, ~ plain_text t s) /\ forall k r, flatten_go k (t :: r) = do rest <- flatten_go (S k) r; Ok (ref_key k ++ fst rest, (ref_key k, t) :: snd rest)).
Proof.
  intros t (ty & Ht & Hw).
  destruct (is_str ty "text") eqn:E.
  - destruct (lookup k_content t) as [c|] eqn:Ec.
    + assert (Dec : (exists s, c = VStr s) \/ (forall s, c <> VStr s)) by (destruct c; try (right; intros s0 C; discriminate C); left; eauto).
      destruct Dec as [(s & ->)|Nc].
      * destruct (lookup k_styles t) as [w|] eqn:Es.
        -- right. split; [intros s0 (_ & _ & C); rewrite Es in C; discriminate C|]. intros k r. cbn [flatten_go]. unfold getitem. rewrite Ht, Ec, Es. cbn [bind]. rewrite E. reflexivity.
        -- left. exists s. split; [|intros k r; cbn [flatten_go]; unfold getitem; rewrite Ht, Ec, Es; cbn [bind]; rewrite E; reflexivity].
           destruct ty as [| | |s'| |]; try discriminate E. cbn [is_str] in E. apply str_eqb_spec in E. subst s'. repeat split; assumption.
      * right. split; [intros s0 (_ & C & _); rewrite Ec in C; injection C as C; exact (Nc _ C)|]. intros k r. cbn [flatten_go]. unfold getitem. rewrite Ht, Ec. cbn [bind]. rewrite E.
        destruct c; try reflexivity. exfalso. eapply Nc. reflexivity.
    + exfalso. destruct ty as [| | |s'| |]; try discriminate E. cbn [is_str] in E. apply str_eqb_spec in E. subst s'. apply Hw; reflexivity.
  - right. split; [|intros k r; cbn [flatten_go]; unfold getitem; rewrite Ht; cbn [bind]; rewrite E; reflexivity]. intros s (C & _). rewrite Ht in C. injection C as ->. cbn in E. discriminate E.
Qed.
Lemma plain_fun : forall t s s', plain_text t s -> plain_text t s' -> s = s'.
Proof. intros t s s' (_ & H & _) (_ & H' & _). congruence. Qed.

Lemma shown_cons : forall tok acc i b t segs, shown tok acc ((i, b, t) :: segs) = text_chunk acc ++ tok i :: shown tok t segs.
Proof. reflexivity. Qed.
Lemma text_chunk_token : forall s, s <> [] -> text_chunk s = [text_token s].
Proof. intros [|x s] H; [congruence|reflexivity]. Qed.
Lemma flatten_segs : forall tokens k acc, Forall well_formed tokens -> runs_without (lit "|REF_") acc tokens ->
  exists text n tok t0 segs, flatten_go k tokens = Ok (text, map (fun i => (ref_key i, tok i)) (seq k n)) /\
    acc ++ text = with_placeholders rW rkey t0 segs /\ increasing k segs /\ (forall s, In s segs -> fst (fst s) < k + n) /\
    rclean t0 /\ (forall s, In s segs -> rclean (snd s)) /\ text_merged acc tokens (shown tok t0 segs).
Proof.
  induction tokens as [|t r IH]; intros k acc Hw Hr.
  - exists [], 0, (fun _ => []), acc, []. inversion Hr; subst. split; [reflexivity|]. split; [apply app_nil_r|]. split; [exact I|]. split; [intros s []|].
    split; [assumption|]. split; [intros s []|]. unfold shown. cbn [flat_map]. rewrite app_nil_r. destruct acc; [constructor|]. rewrite text_chunk_token by discriminate. constructor. discriminate.
  - inversion Hw as [|? ? Hw1 Hw2]; subst. destruct (plain_dec t Hw1) as [(s & Hp & Hf)|(Hp & Hf)].
    + assert (Hr' : runs_without (lit "|REF_") (acc ++ s) r).
      { inversion Hr as [|acc0 t0 s0 r0 Hs0 Hr0|acc0 t0 r0 Ho Hs0 Hr0]; subst; [rewrite (plain_fun _ _ _ Hp Hs0); exact Hr0|exfalso; eapply Hs0; exact Hp]. }
      destruct (IH k (acc ++ s) Hw2 Hr') as (text & n & tok & t0 & segs & E & Et & H1 & H2 & H3 & H4 & H5).
      exists (s ++ text), n, tok, t0, segs. rewrite Hf, E. split; [reflexivity|]. split; [rewrite app_assoc; exact Et|]. do 4 (split; [assumption|]).
      eapply tm_plain; eassumption.
    + assert (Hr' : rclean acc /\ runs_without (lit "|REF_") [] r).
      { inversion Hr as [|acc0 t0 s0 r0 Hs0 Hr0|acc0 t0 r0 Ho Hs0 Hr0]; subst; [exfalso; eapply Hp; exact Hs0|split; assumption]. }
      destruct Hr' as [Ha Hr']. destruct (IH (S k) [] Hw2 Hr') as (text & n & tok & t0 & segs & E & Et & H1 & H2 & H3 & H4 & H5).
      exists (ref_key k ++ text), (S n), (fun i => if Nat.eqb i k then t else tok i), acc, ((k, [], t0) :: segs). rewrite Hf, E.
      split; [|split; [|split; [|split; [|split; [|split]]]]].
      * cbn [bind fst snd seq map]. rewrite Nat.eqb_refl. do 3 f_equal. apply map_ext_in. intros i Hi. apply in_seq in Hi. replace (Nat.eqb i k) with false by (symmetry; apply Nat.eqb_neq; lia). reflexivity.
      * cbn [with_placeholders]. cbn [app] in Et. rewrite Et, ref_key_split. reflexivity.
      * split; [cbn; lia|exact H1].
      * intros s [<-|Hs]; [cbn; lia|]. specialize (H2 s Hs). lia.
      * exact Ha.
      * intros s [<-|Hs]; [exact H3|apply H4; exact Hs].
      * rewrite shown_cons, Nat.eqb_refl.
        assert (Es : shown (fun i => if Nat.eqb i k then t else tok i) t0 segs = shown tok t0 segs).
        { unfold shown. f_equal. rewrite !flat_map_concat_map. f_equal. apply map_ext_in. intros s Hs. pose proof (increasing_ge _ _ _ H1 Hs). replace (Nat.eqb (fst (fst s)) k) with false by (symmetry; apply Nat.eqb_neq; lia). reflexivity. }
        rewrite Es. destruct acc as [|x acc]; [apply tm_other; assumption|]. rewrite text_chunk_token by discriminate. apply tm_other_text; [discriminate|assumption|assumption].
Qed.

Theorem flatten_round_trip : forall tokens, Forall well_formed tokens -> runs_without (lit "|REF_") [] tokens ->
  exists text refs, flatten_tokens tokens = Ok (text, refs) /\ text_merged [] tokens (reference_chunks refs text).
Proof.
  intros tokens Hw Hr. destruct (flatten_segs tokens 1 [] Hw Hr) as (text & n & tok & t0 & segs & E & Et & H1 & H2 & H3 & H4 & H5).
  exists text, (map (fun i => (ref_key i, tok i)) (seq 1 n)). split; [exact E|]. cbn [app] in Et. rewrite Et, chunks_shown by assumption. exact H5.
Qed.
Theorem flatten_keys_distinct : forall tokens text refs, flatten_tokens tokens = Ok (text, refs) -> NoDup (map fst refs) /\
  map snd refs = filter (fun t => negb (match lookup k_type t, lookup k_content t, lookup k_styles t with Some ty, Some (VStr _), None => is_str ty "text" | _, _, _ => false end)) tokens.
Proof.
  intros tokens text refs. unfold flatten_tokens. assert (G : forall tokens k text refs, flatten_go k tokens = Ok (text, refs) ->
    map fst refs = map ref_key (seq k (length refs)) /\
    map snd refs = filter (fun t => negb (match lookup k_type t, lookup k_content t, lookup k_styles t with Some ty, Some (VStr _), None => is_str ty "text" | _, _, _ => false end)) tokens).
  { clear. induction tokens as [|t r IH]; intros k text refs H; [cbn in H; injection H as <- <-; split; reflexivity|]. cbn [flatten_go] in H. cbn [filter].
    unfold getitem at 1 in H. destruct (lookup k_type t) as [ty|] eqn:Et; [|discriminate H]. cbn [bind] in H.
    assert (Ref : (do rest <- flatten_go (S k) r; Ok (ref_key k ++ fst rest, (ref_key k, t) :: snd rest)) = Ok (text, refs) ->
      map fst refs = map ref_key (seq k (length refs)) /\
      map snd refs = t :: filter (fun t => negb (match lookup k_type t, lookup k_content t, lookup k_styles t with Some ty, Some (VStr _), None => is_str ty "text" | _, _, _ => false end)) r).
    { destruct (flatten_go (S k) r) as [[tx rf]|] eqn:E; [|discriminate]. cbn [bind fst snd]. intros [= <- <-]. destruct (IH _ _ _ E) as [I1 I2]. cbn [map fst snd length seq]. rewrite I1, I2. split; reflexivity. }
    destruct (is_str ty "text") eqn:Ey.
    - unfold getitem in H. destruct (lookup k_content t) as [c|] eqn:Ec; [|discriminate H]. cbn [bind] in H.
      destruct c as [| | |s| |]; cbn [bind] in H; try (apply Ref; exact H).
      destruct (lookup k_styles t) eqn:Es; cbn [bind] in H; [apply Ref; exact H|]. cbn [negb].
      destruct (flatten_go k r) as [[tx rf]|] eqn:E; [|discriminate H]. cbn [bind fst snd] in H. injection H as <- <-. eapply IH. exact E.
    - cbn [bind] in H. replace (negb _) with true; [apply Ref; exact H|]. destruct (lookup k_content t) as [[| | |s| |]|]; try reflexivity. destruct (lookup k_styles t); reflexivity. }
  intros H. destruct (G _ _ _ _ H) as [G1 G2]. split; [|exact G2]. rewrite G1. apply FinFun.Injective_map_NoDup; [|apply seq_NoDup].
  intros i j E. unfold ref_key in E. apply app_inv_head in E. cbn [lit list_ascii_of_string map] in E. eapply num_cut in E; [exact E|reflexivity|reflexivity].
Qed.
