(** C113-C115: concrete files. *)
From Coq Require Import List NArith ZArith PeanoNat Lia Bool String.
From Verif Require Import PyStr CodecModel CodecSpec CodecProofs.
Import ListNotations.
Notation length := List.length.
Notation concat := List.concat.
Open Scope list_scope.

Section Files.
Variable chardet : list N -> option str * bool.
Variable other_codec : str -> option (list N -> option str).
Notation read := (read_file chardet other_codec).

Lemma utf8_file : forall t s, Forall scalar t -> sample (encode t) s -> takes_for_utf8 (chardet s) -> exists u, unix t u /\ read (encode t) = Some u.
Proof. intros t s H Hs Hd. destruct (unix_all t) as (u & U). exists u. split; [exact U|]. apply (read_utf8 chardet other_codec t s u H Hs Hd U). Qed.
Lemma utf8_same : forall t s, Forall scalar t -> ~ In 13%N t -> sample (encode t) s -> takes_for_utf8 (chardet s) -> read (encode t) = Some t.
Proof. intros t s H Hn Hs Hd. apply (read_utf8 chardet other_codec t s t H Hs Hd). apply unix_same. exact Hn. Qed.
Lemma damaged_file : forall l s, damaged l -> sample (raw l) s -> takes_for_utf8 (chardet s) -> exists u, unix (seen l) u /\ read (raw l) = Some u.
Proof. intros l s H Hs Hd. destruct (unix_all (seen l)) as (u & U). exists u. split; [exact U|]. apply (read_damaged chardet other_codec l s u H Hs Hd U). Qed.
Lemma latin_file : forall data s, sample data s -> s <> [] -> chardet s = (Some (lit "ISO-8859-1"), true) -> exists u, unix data u /\ read data = Some u.
Proof. intros data s Hs Hn Hd. destruct (unix_all data) as (u & U). exists u. split; [exact U|]. apply (read_latin chardet other_codec data s u Hs Hn Hd U). Qed.

(** ten thousand letters, then one byte of another encoding *)
Definition many : list N := repeat 97%N (N.to_nat 10000).
Lemma many_sample : forall b, sample (many ++ [b]) many.
Proof. intros b. exists [b]. split; [reflexivity|]. unfold many. rewrite repeat_length, N2Nat.id. split; [lia|right; reflexivity]. Qed.
Lemma raw_app : forall a b, raw (a ++ b) = raw a ++ raw b.
Proof. intros a b. unfold raw. rewrite map_app, concat_app. reflexivity. Qed.
Lemma letters_raw : forall n, raw (repeat (Tx 97%N) n) = repeat 97%N n.
Proof. induction n as [|n IH]; [reflexivity|]. unfold raw in *. cbn [repeat map concat raw1]. rewrite IH. reflexivity. Qed.
Lemma letters_damaged : forall n b, (128 <= b < 256)%N -> damaged (repeat (Tx 97%N) n ++ [Byte b]).
Proof.
  intros n b H. induction n as [|n IH].
  - cbn [repeat List.app damaged]. split; [|exact I]. unfold stray. destruct (N.lt_ge_cases b 194); [left; lia|]. destruct (N.lt_ge_cases b 245); [|right; left; lia].
    right. right. split; [lia|]. intros c r E. discriminate.
  - cbn [repeat List.app damaged]. split; [left; reflexivity|exact IH].
Qed.
Lemma letters_seen : forall n b, seen (repeat (Tx 97%N) n ++ [Byte b]) = repeat 97%N n ++ [65533%N].
Proof. intros n b. unfold seen. rewrite map_app. f_equal. induction n as [|n IH]; [reflexivity|]. cbn [repeat map]. rewrite IH. reflexivity. Qed.
Lemma late_byte : forall b, (128 <= b < 256)%N -> takes_for_utf8 (chardet many) -> read (many ++ [b]) = Some (many ++ [65533%N]).
Proof.
  intros b Hb Hd. pose proof (read_damaged chardet other_codec (repeat (Tx 97%N) (N.to_nat 10000) ++ [Byte b]) many (many ++ [65533%N])) as R.
  rewrite raw_app, letters_raw, letters_seen in R. unfold raw at 1 in R. cbn [map concat raw1 List.app] in R. fold many in R. apply R.
  - apply letters_damaged. exact Hb.
  - apply many_sample.
  - exact Hd.
  - apply unix_same. intros K. apply in_app_iff in K as [K|[K|[]]]; [|discriminate]. unfold many in K. apply repeat_spec in K. discriminate.
Qed.
End Files.

Lemma lost : forall chardet other_codec, chardet many = (Some (lit "ascii"), true) ->
  exists a b, a <> b /\ read_file chardet other_codec a = read_file chardet other_codec b /\ read_file chardet other_codec a <> None.
Proof.
  intros chardet other_codec H. assert (Hd : takes_for_utf8 (chardet many)) by (rewrite H; right; right; left; reflexivity).
  exists (many ++ [233%N]), (many ++ [232%N]). split; [intros E; apply app_inv_head in E; discriminate|].
  rewrite !late_byte by (try exact Hd; lia). split; [reflexivity|discriminate].
Qed.

(** a detector of the kind chardet is *)
Definition says (e : string) (_ : list N) : option str * bool := (Some (lit e), true).
Definition no_codec (_ : str) : option (list N -> option str) := None.
Lemma unknown_codec : forall chardet other_codec, chardet [196%N; 163%N] = (Some (lit "EUC-TW"), true) -> other_codec (lit "EUC-TW") = None ->
  read_file chardet other_codec [196%N; 163%N] = None.
Proof.
  intros chardet other_codec H H'. apply (read_unknown chardet other_codec [196%N; 163%N] [196%N; 163%N] (lit "EUC-TW")).
  - exists []. split; [reflexivity|]. split; [vm_compute; discriminate|left; reflexivity].
  - discriminate.
  - exact H.
  - exact H'.
Qed.
(** e acute, then a byte cp1252 does not define *)
Lemma western_lost : read_file (says "Windows-1252") no_codec [233%N; 32%N; 129%N] = Some [65533%N; 32%N; 65533%N] /\
  read_file (says "Windows-1252") no_codec [233%N; 32%N; 128%N] = Some [233%N; 32%N; 8364%N].
Proof. split; vm_compute; reflexivity. Qed.

Definition greek : str := [945%N; 13%N; 10%N; 8364%N; 119912%N; 13%N].
Lemma greek_ok : Forall scalar greek /\ unix greek [945%N; 10%N; 8364%N; 119912%N; 10%N] /\
  encode greek = [206; 177; 13; 10; 226; 130; 172; 240; 157; 145; 168; 13]%N /\ sample (encode greek) (encode greek).
Proof.
  split; [repeat (apply Forall_cons; [unfold scalar; lia|]); apply Forall_nil|].
  split; [apply u_other; [discriminate|]; apply u_crlf; apply u_other; [discriminate|]; apply u_other; [discriminate|]; apply u_cr; [apply u_end|discriminate]|].
  split; [reflexivity|]. exists []. split; [rewrite app_nil_r; reflexivity|]. split; [vm_compute; discriminate|left; reflexivity].
Qed.
Definition cafe : list part := [Tx 99%N; Byte 233%N; Tx 32%N; Tx 233%N].
Lemma cafe_ok : damaged cafe /\ raw cafe = [99; 233; 32; 195; 169]%N /\ seen cafe = [99; 65533; 32; 233]%N.
Proof.
  split; [|split; reflexivity]. split; [left; reflexivity|]. split.
  - right. right. split; [lia|]. intros c r E. change (raw [Tx 32%N; Tx 233%N]) with [32; 195; 169]%N in E. assert (c = 32%N) by congruence. lia.
  - split; [left; reflexivity|]. split; [left; reflexivity|exact I].
Qed.
