(** Computing the match Python reports: the first result of the matcher. *)
From Coq Require Import List NArith PeanoNat Lia Bool.
From Verif Require Import PyStr Regex RegexLemmas.
Import ListNotations.

(** The pattern matches at [i] and the preferred match ends at [j]. *)
Definition first_match (r : re) (t : str) (i : nat) (c : caps) (j : nat) (c' : caps) : Prop :=
  exists l, rm r t i c = (j, c') :: l.

Lemma fm_match : forall r t i j c', first_match r t i [] j c' -> re_match_at r t i = Some {| m_start := i; m_end := j; m_caps := c' |}.
Proof. intros r t i j c' (l & H). unfold re_match_at. rewrite H. reflexivity. Qed.
Lemma fm_search0 : forall r t j c', first_match r t 0 [] j c' -> re_search r t = Some {| m_start := 0; m_end := j; m_caps := c' |}.
Proof.
  intros r t j c' H. apply fm_match in H. unfold re_search, re_search_from. cbn [Nat.leb]. destruct (length t - 0) eqn:E; cbn [re_search_go]; rewrite H; reflexivity.
Qed.
Lemma fm_eps : forall t i c, first_match REps t i c i c.
Proof. intros. exists []. reflexivity. Qed.
Lemma fm_chr : forall (p : ch -> bool) t i c x r, skipn i t = x :: r -> p x = true -> first_match (RChr p) t i c (S i) c.
Proof. intros p t i c x r E H. exists []. cbn [rm]. unfold next_is. rewrite nth_error_skipn, E, H. reflexivity. Qed.
Lemma fm_is_ch : forall x t i c r, skipn i t = x :: r -> first_match (is_ch x) t i c (S i) c.
Proof. intros. eapply fm_chr; [eassumption|]. apply N.eqb_refl. Qed.
Lemma fm_seq : forall a b t i c j c1 k c2, first_match a t i c j c1 -> first_match b t j c1 k c2 -> first_match (RSeq a b) t i c k c2.
Proof.
  intros a b t i c j c1 k c2 (l & Ha) (l' & Hb). unfold first_match. cbn [rm]. rewrite Ha. cbn [flat_map fst snd]. rewrite Hb. eexists. reflexivity.
Qed.
Lemma fm_grp : forall n a t i c j c1, first_match a t i c j c1 -> first_match (RGrp n a) t i c j ((n, (i, j)) :: c1).
Proof. intros n a t i c j c1 (l & H). unfold first_match. cbn [rm]. rewrite H. eexists. reflexivity. Qed.
Lemma fm_alt_left : forall a b t i c j c1, first_match a t i c j c1 -> first_match (RAlt a b) t i c j c1.
Proof. intros a b t i c j c1 (l & H). unfold first_match. cbn [rm]. rewrite H. eexists. reflexivity. Qed.
Lemma fm_alt_right : forall a b t i c j c1, rm a t i c = [] -> first_match b t i c j c1 -> first_match (RAlt a b) t i c j c1.
Proof. intros a b t i c j c1 H1 (l & H). unfold first_match. cbn [rm]. rewrite H1, H. eexists. reflexivity. Qed.
Lemma fm_rstr : forall s t i c r, skipn i t = s ++ r -> first_match (rstr s) t i c (i + length s) c.
Proof. intros s t i c r H. unfold first_match. rewrite rm_rstr, H, startswith_app. eexists. reflexivity. Qed.

Lemma runlen_app : forall p s r, forallb p s = true -> (match r with x :: _ => p x | [] => false end) = false -> runlen p (s ++ r) = length s.
Proof.
  intros p s r H1 H2. induction s as [|x s IH]; cbn in *.
  - destruct r as [|y r]; [reflexivity|]. cbn. rewrite H2. reflexivity.
  - apply andb_prop in H1 as [H H1]. rewrite H, IH by exact H1. reflexivity.
Qed.
(** a greedy run over a class *)
Lemma fm_star : forall p t i c s r, skipn i t = s ++ r -> forallb p s = true -> (match r with x :: _ => p x | [] => false end) = false ->
  first_match (RStar true (RChr p)) t i c (i + length s) c.
Proof.
  intros p t i c s r E H1 H2. unfold first_match. rewrite rm_star_chr_greedy, E, runlen_app, downto_hd by assumption. cbn [map]. eexists. reflexivity.
Qed.
Lemma fm_plus : forall p t i c s r, skipn i t = s ++ r -> s <> [] -> forallb p s = true -> (match r with x :: _ => p x | [] => false end) = false ->
  first_match (rplus (RChr p)) t i c (i + length s) c.
Proof.
  intros p t i c s r E H0 H1 H2. unfold first_match. rewrite rm_rplus_chr, E, runlen_app by assumption. destruct s as [|x s]; [congruence|].
  cbn [length]. rewrite downto_hd. cbn [map]. eexists. replace (S i + length s) with (i + S (length s)) by lia. reflexivity.
Qed.
Lemma skipn_more : forall (t : str) i s r, skipn i t = s ++ r -> skipn (i + length s) t = r.
Proof. intros t i s r H. rewrite <- skipn_add, H, skipn_app, skipn_all, Nat.sub_diag. reflexivity. Qed.
Lemma skipn_more1 : forall (t : str) i x r, skipn i t = x :: r -> skipn (S i) t = r.
Proof. intros t i x r H. replace (S i) with (i + length [x]) by (cbn; lia). apply (skipn_more t i [x] r H). Qed.
Lemma fm_lazy_stop : forall p t i c, first_match (RStar false p) t i c i c.
Proof. intros. unfold first_match. cbn [rm star_run]. eexists. reflexivity. Qed.

(** no match: at a position whose next character cannot start the pattern *)
Lemma rm_chr_none : forall (p : ch -> bool) t i c, (match skipn i t with x :: _ => p x | [] => false end) = false -> rm (RChr p) t i c = [].
Proof. intros p t i c H. cbn [rm]. unfold next_is. rewrite nth_error_skipn. destruct (skipn i t); [reflexivity|]. rewrite H. reflexivity. Qed.
Lemma rm_seq_none : forall a b t i c, rm a t i c = [] -> rm (RSeq a b) t i c = [].
Proof. intros a b t i c H. cbn [rm]. rewrite H. reflexivity. Qed.

(** searching: the leftmost position with a match *)
Lemma search_first : forall r t pos i m, pos <= i -> i <= length t -> (forall k, pos <= k -> k < i -> re_match_at r t k = None) ->
  re_match_at r t i = Some m -> re_search_from r t pos = Some m.
Proof.
  intros r t pos i m H1 H2 H3 H4. unfold re_search_from. replace (Nat.leb pos (length t)) with true by (symmetry; apply Nat.leb_le; lia).
  remember (length t - pos) as n eqn:En. revert pos H1 H3 En. induction n as [|n IH]; intros pos H1 H3 En; cbn [re_search_go].
  - assert (pos = i) by lia. subst. rewrite H4. reflexivity.
  - destruct (Nat.eq_dec pos i) as [->|Ne]; [rewrite H4; reflexivity|]. rewrite H3 by lia. apply IH; [lia|intros k ? ?; apply H3; lia|lia].
Qed.
