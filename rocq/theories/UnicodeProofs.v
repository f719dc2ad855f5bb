(** C110-C112: what the patterns of the conversion match. *)
From Coq Require Import List NArith ZArith PeanoNat Lia Bool String.
From Verif Require Import PyStr Regex RegexLemmas RegexHead UnicodeTable UnicodeModel UnicodeSpec.
Import ListNotations.
Notation length := List.length.
Notation concat := List.concat.
Open Scope list_scope.

(** * One key at the head of a text *)
Definition alpha_head (s : str) : bool := match s with x :: _ => alpha x | [] => false end.
Definition kmatch (k s : str) : option nat :=
  if word_like k
  then if startswith s (k ++ lit "{}") then Some (length k + 2)
       else if startswith s k && negb (alpha_head (skipn (length k) s)) then Some (length k) else None
  else if startswith s k then Some (length k) else None.

Lemma alpha_next : forall t i, next_is alpha t i = alpha_head (skipn i t).
Proof. intros t i. unfold next_is, alpha_head. rewrite nth_error_skipn. destruct (skipn i t); reflexivity. Qed.

Lemma rm_two : forall a b t i c, rm (RSeq (rstr a) (rstr b)) t i c = if startswith (skipn i t) (a ++ b) then [(i + length (a ++ b), c)] else [].
Proof.
  intros a b t i c. change (rm (RSeq (rstr a) (rstr b)) t i c) with (flat_map (fun jc => rm (rstr b) t (fst jc) (snd jc)) (rm (rstr a) t i c)).
  rewrite rm_rstr. destruct (startswith (skipn i t) a) eqn:E.
  - cbn [flat_map fst snd]. rewrite rm_rstr, app_nil_r. apply startswith_spec in E as (r & E). rewrite (skipn_more t i a r E), E, app_length.
    destruct (startswith r b) eqn:F.
    + apply startswith_spec in F as (r' & ->). rewrite app_assoc, startswith_app, Nat.add_assoc. reflexivity.
    + replace (startswith (a ++ r) (a ++ b)) with false; [reflexivity|]. symmetry. apply Bool.not_true_is_false. intros K.
      apply startswith_spec in K as (r' & K). rewrite <- app_assoc in K. apply app_inv_head in K. subst r. rewrite startswith_app in F. discriminate.
  - replace (startswith (skipn i t) (a ++ b)) with false; [reflexivity|]. symmetry. apply Bool.not_true_is_false. intros K.
    apply startswith_spec in K as (r' & K). rewrite <- app_assoc in K. rewrite K, startswith_app in E. discriminate.
Qed.

Lemma rm_tail : forall a t i c, rm (RSeq (rstr a) (RAhead true (RChr alpha))) t i c =
  if startswith (skipn i t) a && negb (alpha_head (skipn (length a) (skipn i t))) then [(i + length a, c)] else [].
Proof.
  intros a t i c. change (rm (RSeq (rstr a) (RAhead true (RChr alpha))) t i c) with (flat_map (fun jc => rm (RAhead true (RChr alpha)) t (fst jc) (snd jc)) (rm (rstr a) t i c)).
  rewrite rm_rstr. destruct (startswith (skipn i t) a) eqn:E; [|reflexivity]. cbn [flat_map fst snd andb rm]. rewrite app_nil_r, alpha_next, skipn_add.
  destruct (alpha_head _); reflexivity.
Qed.

Lemma key_none : forall k t i c, kmatch k (skipn i t) = None -> rm (key_re k) t i c = [].
Proof.
  intros k t i c H. unfold kmatch in H. unfold key_re. destruct (word_like k).
  - change (rm (RSeq (rstr k) (rstr (lit "{}"))) t i c ++ rm (RSeq (rstr k) (RAhead true (RChr alpha))) t i c = []).
    rewrite rm_two, rm_tail. destruct (startswith _ (k ++ _)); [discriminate|]. destruct (_ && _); [discriminate|]. reflexivity.
  - rewrite rm_rstr. destruct (startswith _ k); [discriminate|]. reflexivity.
Qed.
Lemma key_some : forall k t i c n, kmatch k (skipn i t) = Some n -> exists l, rm (key_re k) t i c = (i + n, c) :: l.
Proof.
  intros k t i c n H. unfold kmatch in H. unfold key_re. destruct (word_like k).
  - change (exists l, rm (RSeq (rstr k) (rstr (lit "{}"))) t i c ++ rm (RSeq (rstr k) (RAhead true (RChr alpha))) t i c = (i + n, c) :: l).
    rewrite rm_two, rm_tail. destruct (startswith _ (k ++ _)).
    + injection H as <-. rewrite app_length. eexists. reflexivity.
    + destruct (_ && _); [|discriminate]. injection H as <-. eexists. reflexivity.
  - rewrite rm_rstr. destruct (startswith _ k); [|discriminate]. injection H as <-. eexists. reflexivity.
Qed.

(** * The alternatives of a round *)
Lemma rm_ralt : forall rs t i c, rm (ralt rs) t i c = flat_map (fun r => rm r t i c) rs.
Proof.
  induction rs as [|r rs IH]; intros t i c; [cbn; unfold next_is; destruct (nth_error t i); reflexivity|].
  destruct rs as [|r' rs]; [cbn [flat_map]; rewrite app_nil_r; reflexivity|].
  change (rm (ralt (r :: r' :: rs)) t i c) with (rm r t i c ++ rm (ralt (r' :: rs)) t i c). rewrite IH. reflexivity.
Qed.
Lemma minlen_ralt : forall rs, (forall r, In r rs -> 0 < minlen r) -> 0 < minlen (ralt rs).
Proof.
  induction rs as [|r rs IH]; intros H; [cbn; lia|]. destruct rs as [|r' rs]; [apply H; left; reflexivity|].
  change (0 < Nat.min (minlen r) (minlen (ralt (r' :: rs)))). apply Nat.min_glb_lt; [apply H; left; reflexivity|]. apply IH. intros q Q. apply H. right. exact Q.
Qed.
Lemma minlen_rstr : forall s, minlen (rstr s) = length s.
Proof. induction s as [|x s IH]; cbn [rstr minlen is_ch length]; [reflexivity|]. rewrite IH. reflexivity. Qed.
Lemma minlen_key : forall k, k <> [] -> 0 < minlen (key_re k).
Proof.
  intros k H. assert (L : 0 < length k) by (destruct k; [congruence|cbn; lia]). unfold key_re. destruct (word_like k); cbn [minlen]; rewrite ?minlen_rstr; lia.
Qed.

Lemma round_none : forall ks t i, (forall k, In k ks -> kmatch k (skipn i t) = None) -> re_match_at (ralt (map key_re ks)) t i = None.
Proof.
  intros ks t i H. unfold re_match_at. rewrite rm_ralt. replace (flat_map _ _) with (@nil (nat * caps)); [reflexivity|].
  induction ks as [|k ks IH]; [reflexivity|]. cbn [map flat_map]. rewrite <- IH by (intros q Q; apply H; right; exact Q). rewrite key_none; [reflexivity|]. apply H. left. reflexivity.
Qed.
Lemma round_some : forall a k b t i n, (forall q, In q a -> kmatch q (skipn i t) = None) -> kmatch k (skipn i t) = Some n ->
  re_match_at (ralt (map key_re (a ++ k :: b))) t i = Some {| m_start := i; m_end := i + n; m_caps := [] |}.
Proof.
  intros a k b t i n Ha Hk. unfold re_match_at. rewrite rm_ralt, map_app, flat_map_app.
  replace (flat_map (fun r => rm r t i []) (map key_re a)) with (@nil (nat * caps)).
  - cbn [map flat_map List.app]. destruct (key_some k t i [] n Hk) as (l & ->). reflexivity.
  - clear Hk. induction a as [|q a IH]; [reflexivity|]. cbn [map flat_map]. rewrite <- IH by (intros z Z; apply Ha; right; exact Z). rewrite key_none; [reflexivity|]. apply Ha. left. reflexivity.
Qed.

(** * Copying what does not match *)
Section Copy.
Variable r : re.
Variable f : mobj -> str.
Hypothesis Hmin : 0 < minlen r.
Lemma copy : forall u rest (t : str) pos, skipn pos t = u ++ rest ->
  (forall a x b, u = a ++ x :: b -> re_match_at r t (pos + length a) = None) ->
  sub_at r f t pos = u ++ sub_at r f t (pos + length u).
Proof.
  induction u as [|x u IH]; intros rest t pos E H.
  - cbn [length List.app]. rewrite Nat.add_0_r. reflexivity.
  - assert (L : pos < length t) by (apply (skipn_cons_lt t pos x (u ++ rest)); exact E).
    rewrite sub_at_step by assumption. 
    pose proof (H [] x u eq_refl) as H0. cbn [length] in H0. rewrite Nat.add_0_r in H0. rewrite H0.
    replace (slice pos (S pos) t) with [x] by (unfold slice; rewrite E; replace (S pos - pos) with 1 by lia; reflexivity).
    rewrite (IH rest t (S pos)).
    + cbn [length List.app]. replace (S pos + length u) with (pos + S (length u)) by lia. reflexivity.
    + apply (skipn_more1 t pos x). exact E.
    + intros a y b E2. replace (S pos + length a) with (pos + length (x :: a)) by (cbn; lia). apply (H (x :: a) y b). rewrite E2. reflexivity.
Qed.
End Copy.
