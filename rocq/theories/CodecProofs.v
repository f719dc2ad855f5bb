(** C113-C115: the UTF-8 decoder, the ends of lines, and reading a file. *)
From Coq Require Import List NArith ZArith PeanoNat Lia Bool String.
From Verif Require Import PyStr CodecModel CodecSpec.
Import ListNotations.
Notation length := List.length.
Notation concat := List.concat.
Open Scope list_scope.

Ltac nbool := repeat match goal with
  | |- context [N.ltb ?a ?b] => destruct (N.ltb_spec a b); try lia
  end.

Lemma cont_iff : forall b, cont b = true <-> (128 <= b <= 191)%N.
Proof. intros b. unfold cont. rewrite Bool.andb_true_iff, !N.leb_le. lia. Qed.
Lemma digit64 : forall x, (x mod 64 < 64)%N /\ x = (64 * (x / 64) + x mod 64)%N.
Proof. intros x. split; [apply N.mod_lt; discriminate|]. apply N.div_mod'. Qed.

Lemma second_ok : forall a b, (128 <= b <= 191)%N -> (a = 224 -> 160 <= b)%N -> (a = 237 -> b <= 159)%N -> (a = 240 -> 144 <= b)%N -> (a = 244 -> b <= 143)%N ->
  second a b = true.
Proof.
  intros a b H H1 H2 H3 H4. unfold second. apply andb_true_intro. split; [apply cont_iff; exact H|].
  destruct (N.eqb_spec a 224); [apply N.leb_le; auto|]. destruct (N.eqb_spec a 237); [apply N.leb_le; auto|].
  destruct (N.eqb_spec a 240); [apply N.leb_le; auto|]. destruct (N.eqb_spec a 244); [apply N.leb_le; auto|]. reflexivity.
Qed.
Lemma second_cont : forall a b, second a b = true -> (128 <= b <= 191)%N.
Proof. intros a b H. apply andb_prop in H as [H _]. apply cont_iff. exact H. Qed.

Lemma encode1_cons : forall x, exists a r, encode1 x = a :: r.
Proof. intros x. unfold encode1. destruct (x <? 128)%N; [eauto|]. destruct (x <? 2048)%N; [eauto|]. destruct (x <? 65536)%N; eauto. Qed.

Lemma cons_inv : forall (x y : N) a b, x :: a = y :: b -> x = y /\ a = b.
Proof. intros x y a b H. split; congruence. Qed.
Lemma piece_of : forall x a r w, scalar x -> encode1 x = a :: r -> first_piece a (r ++ w) = Good x (S (length r)).
Proof.
  intros x a r w Hx E. unfold encode1 in E.
  pose proof (digit64 x) as [D0 D1]. pose proof (digit64 (x / 64)) as [D2 D3]. pose proof (digit64 (x / 64 / 64)) as [D4 D5].
  assert (E2 : (x / 4096 = x / 64 / 64)%N) by (rewrite N.div_div by discriminate; reflexivity).
  assert (E3 : (x / 262144 = x / 64 / 64 / 64)%N) by (rewrite !N.div_div by discriminate; reflexivity).
  rewrite E2, E3 in E. clear E2 E3.
  set (q1 := (x / 64)%N) in *. set (q2 := (q1 / 64)%N) in *. set (q3 := (q2 / 64)%N) in *.
  set (m0 := (x mod 64)%N) in *. set (m1 := (q1 mod 64)%N) in *. set (m2 := (q2 mod 64)%N) in *.
  clearbody q1 q2 q3 m0 m1 m2. unfold scalar in Hx. unfold first_piece.
  destruct (N.ltb_spec x 128).
  - apply cons_inv in E as [<- <-]. nbool. reflexivity.
  - destruct (N.ltb_spec x 2048).
    + apply cons_inv in E as [<- <-]. nbool. cbn [List.app length]. replace (cont (128 + m0)) with true by (symmetry; apply cont_iff; lia). f_equal. lia.
    + destruct (N.ltb_spec x 65536).
      * apply cons_inv in E as [<- <-]. nbool. cbn [List.app length].
        rewrite second_ok by lia. replace (cont (128 + m0)) with true by (symmetry; apply cont_iff; lia). f_equal. lia.
      * apply cons_inv in E as [<- <-]. nbool. cbn [List.app length].
        rewrite second_ok by lia. replace (cont (128 + m1)) with true by (symmetry; apply cont_iff; lia).
        replace (cont (128 + m0)) with true by (symmetry; apply cont_iff; lia). f_equal. lia.
Qed.

Lemma stray_bad : forall b w, stray b w -> first_piece b w = Bad 1.
Proof.
  intros b w H. unfold first_piece. destruct (N.ltb_spec b 128); [destruct H as [H|[H|[H _]]]; lia|]. destruct (N.ltb_spec b 194); [reflexivity|].
  destruct H as [H|[H|[H Hc]]]; [lia|nbool; reflexivity|].
  assert (C : forall c r, w = c :: r -> cont c = false) by (intros c r E; apply Bool.not_true_is_false; rewrite cont_iff; apply (Hc c r E)).
  assert (S : forall c r, w = c :: r -> second b c = false) by (intros c r E; unfold second; rewrite (C c r E); reflexivity).
  destruct (N.ltb_spec b 224); [destruct w as [|c r]; [reflexivity|]; rewrite (C c r eq_refl); reflexivity|].
  destruct (N.ltb_spec b 240); [destruct w as [|c r]; [reflexivity|]; rewrite (S c r eq_refl); reflexivity|].
  destruct (N.ltb_spec b 245); [|reflexivity]. destruct w as [|c r]; [reflexivity|]. rewrite (S c r eq_refl). reflexivity.
Qed.

Lemma skip_exact : forall (r w : list N), skipn (S (length r) - 1) (r ++ w) = w.
Proof. intros r w. replace (S (length r) - 1) with (length r) by lia. rewrite skipn_app, skipn_all, Nat.sub_diag. reflexivity. Qed.

Lemma utf8_go_encode : forall t fuel, Forall scalar t -> length (encode t) <= fuel -> utf8_go fuel (encode t) = Some t.
Proof.
  induction t as [|x t IH]; intros fuel H L.
  - destruct fuel; reflexivity.
  - apply Forall_cons_iff in H as [Hx Ht]. unfold encode in *. cbn [map concat] in *. destruct (encode1_cons x) as (a & r & E). rewrite E in *. cbn [List.app length] in L.
    destruct fuel as [|fuel]; [lia|]. cbn [List.app utf8_go]. rewrite (piece_of x a r _ Hx E), skip_exact. rewrite app_length in L. rewrite IH by (try assumption; lia). reflexivity.
Qed.
Lemma utf8_encode : forall t, Forall scalar t -> utf8 (encode t) = Some t.
Proof. intros t H. apply utf8_go_encode; [exact H|apply Nat.le_refl]. Qed.

Lemma replace_go_raw : forall l fuel, damaged l -> length (raw l) <= fuel -> utf8_replace_go fuel (raw l) = seen l.
Proof.
  induction l as [|p l IH]; intros fuel H L.
  - destruct fuel; reflexivity.
  - unfold raw in *. cbn [map concat] in *. destruct p as [x|b]; cbn [raw1 seen map] in *.
    + destruct H as [Hx Hl]. destruct (encode1_cons x) as (a & r & E). rewrite E in *. cbn [List.app length] in L.
      destruct fuel as [|fuel]; [lia|]. cbn [List.app utf8_replace_go]. rewrite (piece_of x a r _ Hx E), skip_exact. rewrite app_length in L. rewrite IH by (try assumption; lia). reflexivity.
    + destruct H as [Hb Hl]. cbn [List.app length] in L. destruct fuel as [|fuel]; [lia|]. cbn [List.app utf8_replace_go]. rewrite (stray_bad b (concat (map raw1 l)) Hb).
      change (skipn (1 - 1) (concat (map raw1 l))) with (concat (map raw1 l)). rewrite IH by (try assumption; lia). reflexivity.
Qed.
Lemma replace_raw : forall l, damaged l -> utf8_replace (raw l) = seen l.
Proof. intros l H. apply replace_go_raw; [exact H|apply Nat.le_refl]. Qed.

(** strict decoding agrees with replacing when it succeeds *)
Lemma strict_replace_go : forall fuel data s, utf8_go fuel data = Some s -> utf8_replace_go fuel data = s.
Proof.
  induction fuel as [|fuel IH]; intros data s H; destruct data as [|a r]; cbn [utf8_go utf8_replace_go] in *; try congruence.
  destruct (first_piece a r) as [c n|n]; [|discriminate]. destruct (utf8_go fuel (skipn (n - 1) r)) as [u|] eqn:E; [|discriminate].
  cbn [option_map] in H. injection H as <-. rewrite (IH _ _ E). reflexivity.
Qed.

(** * The ends of lines *)
Lemma newlines_unix : forall s u, unix s u -> newlines s = u.
Proof.
  induction 1 as [|s u H IH|s u H IH Hn|x s u Hx H IH]; [reflexivity| | |].
  - cbn [newlines]. rewrite !N.eqb_refl. cbn [newlines] in *. cbn [N.eqb Pos.eqb] in *. rewrite IH. reflexivity.
  - cbn [newlines]. rewrite N.eqb_refl. destruct s as [|y r]; [inversion H; reflexivity|]. destruct (N.eqb_spec y 10) as [->|D]; [exfalso; apply (Hn r); reflexivity|]. rewrite IH. reflexivity.
  - cbn [newlines]. destruct (N.eqb_spec x 13); [contradiction|]. rewrite IH. reflexivity.
Qed.
Lemma unix_all_n : forall n s, length s <= n -> exists u, unix s u.
Proof.
  induction n as [|n IH]; intros s L; [destruct s; [exists []; constructor|cbn in L; lia]|].
  destruct s as [|x s]; [exists []; constructor|]. cbn in L. destruct (N.eq_dec x 13) as [->|D].
  - destruct s as [|y r]; [exists [10%N]; apply u_cr; [constructor|discriminate]|]. destruct (N.eq_dec y 10) as [->|D'].
    + destruct (IH r) as (u & U); [cbn in L; lia|]. exists (10%N :: u). apply u_crlf. exact U.
    + destruct (IH (y :: r)) as (u & U); [lia|]. exists (10%N :: u). apply u_cr; [exact U|]. intros q E. injection E as E _. contradiction.
  - destruct (IH s) as (u & U); [lia|]. exists (x :: u). apply u_other; assumption.
Qed.
Lemma unix_all : forall s, exists u, unix s u.
Proof. intros s. apply (unix_all_n (length s)). apply Nat.le_refl. Qed.
Lemma unix_same : forall s, ~ In 13%N s -> unix s s.
Proof. induction s as [|x s IH]; intros H; [constructor|]. apply u_other; [intros ->; apply H; left; reflexivity|]. apply IH. intros K. apply H. right. exact K. Qed.

(** * Reading *)
Section Read.
Variable chardet : list N -> option str * bool.
Variable other_codec : str -> option (list N -> option str).
Notation detect := (detect_encoding chardet).
Notation read := (read_file chardet other_codec).

Lemma sample_firstn : forall data s, sample data s -> firstn (N.to_nat 10000) data = s.
Proof.
  intros data s (r & -> & L & H). destruct H as [->|H].
  - rewrite app_nil_r. apply firstn_all2. lia.
  - replace (N.to_nat 10000) with (length s) by lia. rewrite firstn_app, Nat.sub_diag, firstn_all. cbn [firstn]. apply app_nil_r.
Qed.
Lemma detect_utf8 : forall data s, sample data s -> takes_for_utf8 (chardet s) -> detect data = lit "utf-8".
Proof.
  intros data s Hs H. unfold detect_encoding. rewrite (sample_firstn data s Hs). destruct s as [|b s]; [reflexivity|].
  destruct (chardet (b :: s)) as [e sure]. unfold takes_for_utf8 in H. cbn [fst snd] in H.
  destruct e as [e|]; [|reflexivity]. destruct sure; [|reflexivity].
  destruct H as [H|[H|[H|H]]]; try discriminate; injection H as ->; reflexivity.
Qed.
Lemma detect_name : forall data s e, sample data s -> s <> [] -> chardet s = (Some e, true) -> detect data = encoding_map e.
Proof. intros data s e Hs Hn H. unfold detect_encoding. rewrite (sample_firstn data s Hs). destruct s; [congruence|]. rewrite H. reflexivity. Qed.

Lemma read_utf8 : forall t s u, Forall scalar t -> sample (encode t) s -> takes_for_utf8 (chardet s) -> unix t u -> read (encode t) = Some u.
Proof.
  intros t s u H Hs Hd U. unfold read_file. rewrite (detect_utf8 _ _ Hs Hd). change (codec other_codec (lit "utf-8")) with (Some utf8). cbn iota.
  rewrite (utf8_encode t H), (newlines_unix t u U). reflexivity.
Qed.
Lemma read_damaged : forall l s u, damaged l -> sample (raw l) s -> takes_for_utf8 (chardet s) -> unix (seen l) u -> read (raw l) = Some u.
Proof.
  intros l s u H Hs Hd U. unfold read_file. rewrite (detect_utf8 _ _ Hs Hd). change (codec other_codec (lit "utf-8")) with (Some utf8). cbn iota.
  destruct (utf8 (raw l)) as [t|] eqn:E.
  - apply strict_replace_go in E. change (utf8_replace_go (length (raw l)) (raw l)) with (utf8_replace (raw l)) in E. rewrite (replace_raw l H) in E. subst t. rewrite (newlines_unix _ u U). reflexivity.
  - rewrite (replace_raw l H), (newlines_unix _ u U). reflexivity.
Qed.
Lemma read_latin : forall data s u, sample data s -> s <> [] -> chardet s = (Some (lit "ISO-8859-1"), true) -> unix data u -> read data = Some u.
Proof.
  intros data s u Hs Hn Hd U. unfold read_file. rewrite (detect_name _ _ _ Hs Hn Hd). change (codec other_codec (encoding_map (lit "ISO-8859-1"))) with (Some latin1). cbn iota.
  unfold latin1. rewrite (newlines_unix data u U). reflexivity.
Qed.
Lemma read_some : forall data, (forall s e, sample data s -> chardet s = (Some e, true) -> e = lit "ascii" \/ e = lit "utf-8" \/ e = lit "ISO-8859-1" \/ e = lit "Windows-1252" \/ other_codec e <> None) ->
  exists t, read data = Some t.
Proof.
  intros data H. assert (Hc : exists d, codec other_codec (detect data) = Some d).
  { assert (Hs : sample data (firstn (N.to_nat 10000) data)).
    { exists (skipn (N.to_nat 10000) data). split; [symmetry; apply firstn_skipn|]. rewrite firstn_length. split; [lia|].
      destruct (Nat.le_gt_cases (length data) (N.to_nat 10000)); [left; apply skipn_all2; assumption|right; lia]. }
    unfold detect_encoding. destruct (firstn (N.to_nat 10000) data) as [|b s] eqn:E; [exists utf8; reflexivity|].
    destruct (chardet (b :: s)) as [e sure] eqn:Ed. destruct e as [e|]; [|exists utf8; reflexivity]. destruct sure; [|exists utf8; reflexivity].
    specialize (H (b :: s) e Hs Ed). destruct H as [->|[->|[->|[->|H]]]]; [exists utf8; reflexivity|exists utf8; reflexivity|exists latin1; reflexivity|exists cp1252; reflexivity|].
    unfold encoding_map. destruct (str_eqb e (lit "ascii")); [exists utf8; reflexivity|]. destruct (str_eqb e (lit "ISO-8859-1")); [exists latin1; reflexivity|].
    destruct (str_eqb e (lit "Windows-1252")); [exists cp1252; reflexivity|]. unfold codec.
    destruct (str_eqb e (lit "utf-8")); [eauto|]. destruct (str_eqb e (lit "latin-1")); [eauto|]. destruct (str_eqb e (lit "cp1252")); [eauto|].
    destruct (other_codec e) as [d|]; [eauto|congruence]. }
  destruct Hc as (d & Hc). unfold read_file. rewrite Hc. destruct (d data); eauto.
Qed.
Lemma read_unknown : forall data s e, sample data s -> s <> [] -> chardet s = (Some e, true) -> codec other_codec (encoding_map e) = None -> read data = None.
Proof. intros data s e Hs Hn Hd Hc. unfold read_file. rewrite (detect_name _ _ _ Hs Hn Hd), Hc. reflexivity. Qed.
End Read.
