(** Formatting commands without arguments (C100). *)
From Coq Require Import List NArith PeanoNat Lia Bool String.
From Verif Require Import PyStr Regex RegexLemmas RegexHead RegexAbs DelimSpec DelimFinal Json TexUtilsModel StyleModel StyleSpec FormatModel FormatSpec FormatProofs.
From Verif Require StyleProofs3.
Import ListNotations. Notation length := List.length. Notation concat := List.concat. Open Scope list_scope.

Lemma dead_rel : forall p r rest j, dead p r = true -> ~ rel r (p ++ rest) 0 j.
Proof. intros p r rest j D R. destruct (holds_may _ _ _ _ (am_holds _ _ _ _ _ R rest eq_refl (le_0_n _))) as [F|(_ & F)]; unfold dead in D; destruct (am p r 0); try discriminate; exact F. Qed.
Section P.
Variable u : ch -> bool.
Variable quantize : str -> str -> option str.
(** * The word ends *)
Definition name_b (x : ch) : bool := is_letter x || N.eqb x 64.
Lemma over_next : forall rest, name_over u rest -> next_is (w u) rest 0 = false.
Proof.
  intros [|x r] H; [reflexivity|]. destruct (H x r eq_refl) as (A & B & C & D & F). cbn. unfold w. apply StyleProofs3.letter_ok in A. rewrite A. cbn.
  assert (Bd : isdigit x = false). { destruct (isdigit x) eqn:E; [|reflexivity]. exfalso. apply B. unfold isdigit, in_range in E. apply andb_prop in E as [E1 E2]. apply N.leb_le in E1, E2. split; assumption. }
  rewrite Bd. apply N.eqb_neq in C. rewrite C. cbn. destruct (N.leb 128 x) eqn:E; [|reflexivity]. apply N.leb_le in E. rewrite (F E). reflexivity.
Qed.
Lemma over_name : forall rest x r, name_over u rest -> rest = x :: r -> name_b x = false.
Proof. intros rest x r H E. destruct (H x r E) as (A & _ & _ & D & _). apply StyleProofs3.letter_ok in A. apply N.eqb_neq in D. unfold name_b. rewrite A, D. reflexivity. Qed.
Lemma table_bok : forall rest name r a, next_is (w u) rest 0 = false -> In (name, (r, a)) (TABLE u) -> bok rest r.
Proof.
  intros rest name r a H I. unfold TABLE in I. cbn [In] in I.
  repeat (destruct I as [I|I]; [injection I as _ <- _; repeat (exact I || exact H || exact Logic.I || split)|]). destruct I.
Qed.
(** * \...maketitle *)
Definition MK1 : re := rseq [ropt (rplus name_ch); rstr (lit "maketitle")].
Definition MKREST : re := rseq [rstr (lit "\"); ralt [rstr (lit "makeatletter"); rstr (lit "makeatother"); rstr (lit "tableofcontents"); rstr (lit "@title")]; RBound (w u)].
Definition occurs_in (s t : str) : bool := existsb (fun k => startswith (skipn k t) s) (seq 0 (S (length t))).
Lemma run_prefix : forall n (word rest q : str), Forall (fun x => name_b x = true) n -> (forall x r, rest = x :: r -> name_b x = false) -> word ++ rest = n ++ q -> exists d, word = n ++ d.
Proof.
  induction n as [|x n IH]; intros word rest q F H E; [exists word; reflexivity|]. inversion F as [|? ? Fx Fn]; subst. destruct word as [|y word].
  - cbn in E. subst rest. rewrite (H x (n ++ q) eq_refl) in Fx. discriminate.
  - cbn in E. injection E as -> E. destruct (IH word rest q Fn H E) as (d & ->). exists d. reflexivity.
Qed.
Lemma mk1_inv : forall (word rest : str) j, (forall x r, rest = x :: r -> name_b x = false) -> rel MK1 (c_bs :: word ++ rest) 1 j -> exists n d, word = n ++ lit "maketitle" ++ d /\ j = 1 + length n + 9.
Proof.
  intros word rest j H R. unfold MK1 in R. cbn [rseq] in R. apply rel_rseq2 in R as (k & R1 & R2). apply rel_rstr in R2 as (-> & q & E).
  assert (N : exists n, word ++ rest = n ++ skipn k (c_bs :: word ++ rest) /\ k = 1 + length n /\ Forall (fun x => name_b x = true) n).
  { unfold ropt in R1. apply rel_alt2 in R1 as [R1|R1].
    - unfold rplus in R1. apply rel_rseq2 in R1 as (k0 & R0 & R1). apply LegacyProofs5.chr_inv in R0 as (-> & x & Ex & Fx). apply rel_star_chr in R1 as (ds & r & E1 & F1 & ->).
      cbn in Ex. cbn [skipn] in E1. destruct (word ++ rest) as [|y t0] eqn:Et; [discriminate|]. cbn in Ex, E1. injection Ex as ->. subst t0. exists (x :: ds). split; [|split; [cbn; lia|constructor; [exact Fx|apply Forall_forall; intros y Iy; rewrite forallb_forall in F1; exact (F1 y Iy)]]].
      cbn [List.app]. f_equal. f_equal. change (1 + 1 + length ds) with (2 + length ds). rewrite <- skipn_add. cbn [skipn]. rewrite skipn_app_exact by reflexivity. reflexivity.
    - assert (k = 1) as -> by (inversion R1; reflexivity). exists []. split; [reflexivity|]. split; [reflexivity|constructor]. }
  destruct N as (n & En & -> & F). rewrite E in En. assert (Fm : Forall (fun x => name_b x = true) (n ++ lit "maketitle")) by (apply Forall_app; split; [exact F|repeat constructor]).
  rewrite app_assoc in En. destruct (run_prefix _ _ _ _ Fm H En) as (d & Ed). exists n, d. split; [rewrite Ed, <- app_assoc; reflexivity|]. change (length (lit "maketitle")) with 9. lia.
Qed.
Lemma occurs_ok : forall s a b : str, occurs_in s (a ++ s ++ b) = true.
Proof.
  intros s a b. unfold occurs_in. apply existsb_exists. exists (length a). split; [apply List.in_seq; rewrite app_length; lia|]. rewrite skipn_app_exact by reflexivity. apply startswith_spec. exists b. reflexivity.
Qed.
Lemma make_inv : forall t j, rel (P_make_or_contents u) t 0 j -> (exists k, rel MK1 t 1 k /\ j = k) \/ rel MKREST t 0 j.
Proof.
  intros t j R. unfold P_make_or_contents in R. cbn [rseq] in R. apply rel_rseq2 in R as (k & R0 & R). apply rel_rseq2 in R as (k2 & R1 & R2).
  change (RAlt MK1 (ralt [rstr (lit "makeatletter"); rstr (lit "makeatother"); rstr (lit "tableofcontents"); rstr (lit "@title")])) with (ralt [rseq [ropt (rplus name_ch); rstr (lit "maketitle")]; rstr (lit "makeatletter"); rstr (lit "makeatother"); rstr (lit "tableofcontents"); rstr (lit "@title")]) in *.
  change (rel (RAlt MK1 (ralt [rstr (lit "makeatletter"); rstr (lit "makeatother"); rstr (lit "tableofcontents"); rstr (lit "@title")])) t k k2) in R1. apply rel_alt2 in R1 as [R1|R1].
  - left. exists k2. split; [apply rel_rstr in R0 as (-> & _); exact R1|]. inversion R2; subst; reflexivity.
  - right. unfold MKREST. cbn [rseq]. econstructor; [exact R0|]. econstructor; [exact R1|exact R2].
Qed.
Lemma make_none : forall word rest, name_over u rest -> occurs_in (lit "maketitle") word = false -> dead (lit "\" ++ word) MKREST = true -> re_match_at (P_make_or_contents u) ((lit "\" ++ word) ++ rest) 0 = None.
Proof.
  intros word rest H O D. destruct (re_match_at (P_make_or_contents u) ((lit "\" ++ word) ++ rest) 0) as [m|] eqn:M; [|reflexivity]. exfalso. apply match_rel in M as (_ & R). apply make_inv in R as [(k & R & _)|R].
  - change ((lit "\" ++ word) ++ rest) with (c_bs :: word ++ rest) in R. apply mk1_inv in R as (n & d & E & _); [|intros x r; apply over_name; exact H]. subst word. rewrite occurs_ok in O. discriminate.
  - exact (dead_rel _ _ _ _ D R).
Qed.
Definition make_ok (word : str) : bool := if occurs_in (lit "maketitle") word then str_eqb word (lit "maketitle") && dead (lit "\" ++ word) MKREST else ends_only (lit "\" ++ word) MKREST (S (length word)).
Lemma make_self : forall word rest, name_over u rest -> make_ok word = true -> ends_at (lit "\" ++ word) (P_make_or_contents u) (S (length word)) = true -> exists m, re_match_at (P_make_or_contents u) ((lit "\" ++ word) ++ rest) 0 = Some m /\ m_start m = 0 /\ m_end m = S (length word).
Proof.
  intros word rest H K E0. apply match_end.
  - apply some_end; [|exact E0]. apply (table_bok rest "make_or_contents" _ ADrop); [apply over_next; exact H|]. unfold TABLE. do 10 right. left. reflexivity.
  - intros j R. unfold make_ok in K. apply make_inv in R as [(k & R & ->)|R].
    + change ((lit "\" ++ word) ++ rest) with (c_bs :: word ++ rest) in R. apply mk1_inv in R as (n & d & E & ->); [|intros x r; apply over_name; exact H]. assert (O : occurs_in (lit "maketitle") word = true) by (rewrite E; apply occurs_ok). rewrite O in K. apply andb_prop in K as [K _]. apply str_eqb_spec in K. subst word. apply (f_equal (@length ch)) in E. rewrite !app_length in E. change (length (lit "maketitle")) with 9 in *. lia.
    + destruct (occurs_in (lit "maketitle") word).
      * apply andb_prop in K as [_ K]. destruct (dead_rel _ _ _ _ K R).
      * exact (only_end _ _ rest _ j K R).
Qed.
(** * \hfil and \vfil, beginnings of \hfill and \vfill *)
Definition WORDS : list string := ["centering"; "raggedright"; "raggedleft"; "allowdisplaybreaks"; "samepage"; "thepage"; "noindent"; "par"; "clearpage"; "cleardoublepage"; "nopagebreak"; "hss"; "hfill"; "hfil"; "vfill"; "vfil"; "break"; "sloppy"; "flushbottom"; "flushleft"; "flushright"; "flushtop"]%string.
Definition PAGE1 : re := ralt [(rseq [rstr (lit "\enlargethispage"); ARG]); (rseq [rstr (lit "\pagecolor"); (ropt (rstr (lit "*"))); rstr (lit "{"); (rstar no_rb); rstr (lit "}")])].
Lemma words_inv : forall l t i j, rel (words l) t i j -> exists s q, In s l /\ skipn i t = lit s ++ q /\ j = i + length (lit s).
Proof.
  induction l as [|s l IH]; intros t i j R; [exfalso; unfold words in R; cbn in R; apply LegacyProofs5.chr_inv in R as (_ & x & _ & X); discriminate|].
  assert (C : rel (rstr (lit s)) t i j \/ rel (words l) t i j). { destruct l as [|s2 l]; [left; exact R|]. unfold words in R. cbn [map ralt] in R. apply rel_alt2 in R as [R|R]; [left; exact R|right; exact R]. }
  destruct C as [C|C]; [apply rel_rstr in C as (-> & q & E); exists s, q; split; [left; reflexivity|split; [exact E|reflexivity]]|]. destruct (IH _ _ _ C) as (s' & q & I & E & Ej). exists s', q. split; [right; exact I|split; assumption].
Qed.
Definition fil_ok (word : string) : bool :=
  dead (lit "\" ++ lit word) PAGE1 && ends_at (lit "\" ++ lit word) (P_page u) (S (length (lit word))) && forallb (fun s => negb (startswith (lit word) (lit s)) || String.eqb s word) WORDS && forallb (fun s => forallb name_b (lit s)) WORDS.
Lemma fil_self : forall word rest, name_over u rest -> fil_ok word = true -> exists m, re_match_at (P_page u) ((lit "\" ++ lit word) ++ rest) 0 = Some m /\ m_start m = 0 /\ m_end m = S (length (lit word)).
Proof.
  intros word rest H K. unfold fil_ok in K. apply andb_prop in K as [K K4]. apply andb_prop in K as [K K3]. apply andb_prop in K as [K1 K2]. rewrite forallb_forall in K3, K4. apply match_end.
  - apply some_end; [|exact K2]. apply (table_bok rest "page" _ ADrop); [apply over_next; exact H|]. unfold TABLE. do 16 right. left. reflexivity.
  - intros j R. assert (C : rel PAGE1 ((lit "\" ++ lit word) ++ rest) 0 j \/ rel (rseq [rstr (lit "\"); words WORDS; RBound (w u)]) ((lit "\" ++ lit word) ++ rest) 0 j).
    { unfold P_page in R. cbn [ralt] in R. apply rel_alt2 in R as [R|R]; [left; unfold PAGE1; cbn [ralt]; apply rel_altl; exact R|]. apply rel_alt2 in R as [R|R]; [left; unfold PAGE1; cbn [ralt]; apply rel_altr; exact R|right; exact R]. }
    destruct C as [C|C].
    + destruct (dead_rel _ _ _ _ K1 C).
    + cbn [rseq] in C. apply rel_rseq2 in C as (k & R0 & C). apply rel_rstr in R0 as (-> & _). apply rel_rseq2 in C as (k2 & R1 & R2). apply words_inv in R1 as (s & q & I & E & ->). assert (j = 0 + length (lit "\") + length (lit s)) as -> by (inversion R2; subst; reflexivity).
      change (lit word ++ rest = lit s ++ q) in E.
      assert (Fs : Forall (fun x => name_b x = true) (lit s)) by (apply Forall_forall; intros x Ix; specialize (K4 _ I); rewrite forallb_forall in K4; exact (K4 _ Ix)).
      destruct (run_prefix _ _ _ _ Fs (fun x r => over_name rest x r H) E) as (d & Ed). specialize (K3 _ I). apply orb_prop in K3 as [K3|K3].
      * exfalso. apply negb_true_iff in K3. assert (startswith (lit word) (lit s) = true) by (apply startswith_spec; exists d; exact Ed). congruence.
      * apply String.eqb_eq in K3. subst s. reflexivity.
Qed.
(** * Walking through the table *)
Definition act_word (p : str) (a : action) : option (option val) :=
  if startswith p (lit "\baselineskip") then None
  else match a with ADrop => Some None | AText s => Some (Some (text_token s)) | ASpacing => Some (if str_eqb p (lit "\!") then None else Some (text_token [c_sp]))
  | AOptions => if endswith p [c_lb] then None else Some None | _ => None end.
Lemma act_word_ok : forall p rest prev a t m, act_word p a = Some t -> m_end m = length p -> act quantize (p ++ rest) prev a m = Ok (t, length p, prev).
Proof.
  intros p rest prev a t m A E. unfold act_word in A. destruct (startswith p (lit "\baselineskip")) eqn:B; [discriminate|]. unfold act. cbv zeta. rewrite E, firstn_app_exact by reflexivity. rewrite B.
  destruct a; try discriminate; try (injection A as <-; reflexivity).
  - injection A as <-. destruct (str_eqb p (lit "\!")); reflexivity.
  - destruct (endswith p [c_lb]); [discriminate|]. injection A as <-. reflexivity.
Qed.
Fixpoint walk (word : string) (T : list (string * (re * action))) : option (option val) :=
  let p := lit "\" ++ lit word in
  match T with
  | [] => None
  | (name, (r, a)) :: T' =>
      if dead p r then walk word T'
      else if String.eqb name "make_or_contents" && negb (occurs_in (lit "maketitle") (lit word)) && dead p MKREST then walk word T'
      else if (ends_only p r (length p) && ends_at p r (length p)) || (String.eqb name "page" && fil_ok word) || (String.eqb name "make_or_contents" && make_ok (lit word) && ends_at p (P_make_or_contents u) (S (length (lit word)))) then act_word p a
      else None
  end.
Lemma named_make : forall name r a, In (name, (r, a)) (TABLE u) -> name = "make_or_contents"%string -> r = P_make_or_contents u.
Proof. intros name r a I E. unfold TABLE in I. cbn [In] in I. repeat (destruct I as [I|I]; [injection I as <- <- <-; first [discriminate E|reflexivity]|]). destruct I. Qed.
Lemma named_page : forall name r a, In (name, (r, a)) (TABLE u) -> name = "page"%string -> r = P_page u.
Proof. intros name r a I E. unfold TABLE in I. cbn [In] in I. repeat (destruct I as [I|I]; [injection I as <- <- <-; first [discriminate E|reflexivity]|]). destruct I. Qed.
Lemma walk_ok : forall word rest prev t T, name_over u rest -> (forall e, In e T -> In e (TABLE u)) -> walk word T = Some t ->
  try_table quantize T [] ((lit "\" ++ lit word) ++ rest) prev = Ok (t, length (lit "\" ++ lit word), prev).
Proof.
  intros word rest prev t T H. set (p := lit "\" ++ lit word) in *. induction T as [|(name, (r, a)) T IH]; intros S W; [discriminate|]. cbn [walk] in W. fold p in W. cbn [try_table existsb].
  specialize (IH (fun e I => S e (or_intror I))). pose proof (S _ (or_introl eq_refl)) as I.
  destruct (dead p r) eqn:D. { rewrite (dead_none p r rest D). exact (IH W). }
  destruct (String.eqb name "make_or_contents" && negb (occurs_in (lit "maketitle") (lit word)) && dead p MKREST) eqn:C.
  { apply andb_prop in C as [C C3]. apply andb_prop in C as [C1 C2]. apply String.eqb_eq in C1. apply negb_true_iff in C2. rewrite (named_make _ _ _ I C1). unfold p. rewrite (make_none (lit word) rest H C2 C3). exact (IH W). }
  assert (M : forall m, re_match_at r (p ++ rest) 0 = Some m -> m_end m = length p -> act_word p a = Some t -> match re_match_at r (p ++ rest) 0 with Some m => act quantize (p ++ rest) prev a m | None => try_table quantize T [] (p ++ rest) prev end = Ok (t, length p, prev)).
  { intros m Em El A. rewrite Em. apply act_word_ok; assumption. }
  destruct (ends_only p r (length p) && ends_at p r (length p)) eqn:X; cbn [orb] in W.
  { apply andb_prop in X as [X1 X2]. destruct (match_end r (p ++ rest) (length p)) as (m & Em & _ & El).
    - apply some_end; [|exact X2]. apply (table_bok rest name r a); [apply over_next; exact H|exact I].
    - intros j R. exact (only_end p r rest _ j X1 R).
    - exact (M m Em El W). }
  destruct (String.eqb name "page" && fil_ok word) eqn:Y; cbn [orb] in W.
  { apply andb_prop in Y as [Y1 Y2]. apply String.eqb_eq in Y1. rewrite (named_page _ _ _ I Y1) in *. destruct (fil_self word rest H Y2) as (m & Em & _ & El). exact (M m Em El W). }
  destruct (String.eqb name "make_or_contents" && make_ok (lit word) && ends_at p (P_make_or_contents u) (Datatypes.S (length (lit word)))) eqn:Z; [|discriminate]. apply andb_prop in Z as [Z Z3]. apply andb_prop in Z as [Z1 Z2]. apply String.eqb_eq in Z1. rewrite (named_make _ _ _ I Z1) in *. destruct (make_self (lit word) rest H Z2 Z3) as (m & Em & _ & El). exact (M m Em El W).
Qed.
Lemma words_ok : forall l t, map (fun s => walk s (TABLE u)) l = map (fun _ => Some t) l -> forall word rest prev, In word l -> name_over u rest ->
  fmt_handle u quantize [] prev ((lit "\" ++ lit word) ++ rest) = Ok (t, length (lit "\" ++ lit word), prev).
Proof.
  intros l t E word rest prev I H. unfold fmt_handle. apply walk_ok; [exact H|auto|]. assert (J : In (walk word (TABLE u)) (map (fun s => walk s (TABLE u)) l)) by (apply in_map_iff; exists word; auto). rewrite E in J. apply in_map_iff in J as (x & J & _). symmetry. exact J.
Qed.
Lemma removed_ok : map (fun s => walk s (TABLE u)) removed = map (fun _ => Some None) removed.
Proof. vm_compute. reflexivity. Qed.
Lemma new_line_ok : map (fun s => walk s (TABLE u)) new_line = map (fun _ => Some (Some (text_token [10%N]))) new_line.
Proof. vm_compute. reflexivity. Qed.
Lemma blanks_ok : map (fun s => walk s (TABLE u)) blanks = map (fun _ => Some (Some (text_token [c_sp]))) blanks.
Proof. vm_compute. reflexivity. Qed.
End P.
