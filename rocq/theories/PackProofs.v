(** C107: title commands. *)
From Coq Require Import List NArith ZArith PeanoNat Lia Bool String.
From Verif Require BibParserProofs LegacyProofs5.
From Verif Require Import PyStr Regex RegexLemmas RegexHead RegexAbs DelimSpec DelimProofs2 DelimFinal TexUtilsModel BoxProofs PackModel PackSpec.
Import ListNotations. Notation length := List.length. Notation concat := List.concat. Open Scope list_scope.
Local Notation fm := RegexHead.first_match.
(** * What the patterns match *)
Lemma gap_fm : forall t i c g r, skipn i t = g ++ c_lb :: r -> blank g -> fm (RSeq (rstar rspace) (is_ch c_lb)) t i c (i + length g + 1) c.
Proof.
  intros t i c g r E B. eapply fm_seq; [apply (fm_star isspace _ _ _ g _ E B); reflexivity|]. apply skipn_more in E. replace (i + length g + 1) with (S (i + length g)) by lia. eapply fm_is_ch. exact E.
Qed.
Lemma head_fm : forall wd t i c g r, skipn i t = lit wd ++ g ++ c_lb :: r -> blank g -> fm (rseq [rstr (lit wd); rstar rspace; is_ch c_lb]) t i c (i + length (lit wd) + length g + 1) c.
Proof.
  intros wd t i c g r E B. cbn [rseq]. eapply fm_seq; [apply (fm_rstr (lit wd) _ _ _ _ E)|]. apply skipn_more in E. exact (gap_fm _ _ _ _ _ E B).
Qed.
Lemma starts_no : forall (wd : str) r t, startswith t wd = false -> re_match_at (RSeq (rstr wd) r) t 0 = None.
Proof. intros wd r t H. unfold re_match_at. rewrite rm_seq_none; [reflexivity|]. rewrite rm_rstr. cbn [skipn]. rewrite H. reflexivity. Qed.
(** * The command is read *)
Definition reads_title (head spec r : str) : Prop := titlesec_loop TITLE_PATTERNS (head ++ c_lb :: r) = length head + snd (extract_delimited_args (c_lb :: r) spec).
Lemma here : forall (t : str) head r spec p ps c, t = head ++ c_lb :: r -> fm p t 0 [] (length head + 1) c -> titlesec_loop ((p, spec) :: ps) t = length head + snd (extract_delimited_args (c_lb :: r) spec).
Proof.
  intros t head r spec p ps c -> F. cbn [titlesec_loop]. rewrite (fm_match _ _ _ _ _ F). cbn [m_end]. cbv zeta. replace (length head + 1 - 1) with (length head) by lia.
  change (skipn (length head) (head ++ c_lb :: r)) with (skipn (length head) (head ++ [c_lb] ++ r)). rewrite skipn_app_exact by reflexivity. reflexivity.
Qed.
Lemma pass : forall p spec ps t, re_match_at p t 0 = None -> titlesec_loop ((p, spec) :: ps) t = titlesec_loop ps t.
Proof. intros p spec ps t E. cbn [titlesec_loop]. rewrite E. reflexivity. Qed.
Ltac skip1 := rewrite pass by (cbn [rseq]; apply starts_no; reflexivity).
Lemma app2 : forall (a b : str) x r, (a ++ b) ++ x :: r = a ++ b ++ x :: r.
Proof. intros. rewrite <- app_assoc. reflexivity. Qed.
Ltac len := rewrite !app_length; cbn [List.length]; change (length (lit "\titleformat")) with 12; change (length (lit "\titlespacing")) with 13; change (length (lit "\titlelabel")) with 11; change (length (lit "\titlecontents")) with 14; change (length (lit "\titleline")) with 10; lia.
Lemma title_read : forall head spec, title_command head spec -> forall r, reads_title head spec r.
Proof.
  intros head spec T r. unfold reads_title, TITLE_PATTERNS. destruct T as [g B|star g S B|g B|g B|g B|g1 s g2 B1 B2 N].
  - eapply here; [reflexivity|]. replace (length (lit "\titleformat" ++ g) + 1) with (0 + length (lit "\titleformat") + length g + 1) by len. apply (head_fm _ _ _ _ g r); [apply app2|exact B].
  - skip1. eapply here; [reflexivity|]. cbn [rseq]. set (t := (lit "\titlespacing" ++ star ++ g) ++ c_lb :: r). assert (E : skipn 0 t = lit "\titlespacing" ++ star ++ g ++ c_lb :: r) by (unfold t; rewrite <- !app_assoc; reflexivity).
    replace (length (lit "\titlespacing" ++ star ++ g) + 1) with (0 + length (lit "\titlespacing") + length star + length g + 1) by len.
    eapply fm_seq; [apply (fm_rstr (lit "\titlespacing") _ _ _ _ E)|]. apply skipn_more in E. pose proof E as E1. apply skipn_more in E1.
    eapply fm_seq; [|apply (gap_fm _ _ _ _ _ E1 B)]. unfold ropt. destruct S as [->| ->].
    + cbn [List.app] in E. apply fm_alt_right.
      * rewrite rm_rstr, E. destruct g as [|x g]; [reflexivity|]. unfold blank in B. cbn [forallb] in B. apply andb_true_iff in B as [B _]. change (lit "*") with [42%N]. cbn [startswith List.app]. destruct (N.eqb_spec 42 x) as [<-|_]; [discriminate B|]. destruct (N.eqb_spec x 42) as [->|_]; [discriminate B|]. reflexivity.
      * cbn [List.length]. rewrite Nat.add_0_r. apply fm_eps.
    + apply fm_alt_left. exact (fm_rstr (lit "*") _ _ _ _ E).
  - do 2 skip1. eapply here; [reflexivity|]. replace (length (lit "\titlelabel" ++ g) + 1) with (0 + length (lit "\titlelabel") + length g + 1) by len. apply (head_fm _ _ _ _ g r); [apply app2|exact B].
  - do 3 skip1. eapply here; [reflexivity|]. replace (length (lit "\titlecontents" ++ g) + 1) with (0 + length (lit "\titlecontents") + length g + 1) by len. apply (head_fm _ _ _ _ g r); [apply app2|exact B].
  - do 4 skip1. eapply here; [reflexivity|]. cbn [rseq]. set (t := (lit "\titleline" ++ g) ++ c_lb :: r). assert (E : skipn 0 t = lit "\titleline" ++ g ++ c_lb :: r) by (unfold t; rewrite <- !app_assoc; reflexivity).
    eapply fm_seq; [apply (fm_rstr (lit "\titleline") _ _ _ _ E)|]. apply skipn_more in E. eapply fm_seq; [apply (fm_star isspace _ _ _ g _ E B); reflexivity|]. pose proof E as E1. apply skipn_more in E1.
    eapply fm_seq; [unfold OPTIONAL_BRACE, ropt; apply fm_alt_right; [|apply fm_eps]|].
    + cbn [rseq]. apply rm_seq_none. apply rm_chr_none. rewrite E1. reflexivity.
    + replace (length (lit "\titleline" ++ g) + 1) with (0 + length (lit "\titleline") + length g + length (@nil ch) + 1) by len. apply (gap_fm _ _ _ [] r); [exact E1|reflexivity].
  - do 4 skip1. eapply here; [reflexivity|]. cbn [rseq]. set (hd := lit "\titleline" ++ g1 ++ [c_lk] ++ s ++ [c_rk] ++ g2). set (t := hd ++ c_lb :: r). assert (E : skipn 0 t = lit "\titleline" ++ g1 ++ [c_lk] ++ s ++ [c_rk] ++ g2 ++ c_lb :: r) by (unfold t, hd; rewrite <- !app_assoc; reflexivity).
    eapply fm_seq; [apply (fm_rstr (lit "\titleline") _ _ _ _ E)|]. apply skipn_more in E. eapply fm_seq; [apply (fm_star isspace _ _ _ g1 _ E B1); reflexivity|]. apply skipn_more in E. pose proof E as E1. apply skipn_more in E1. pose proof E1 as E2. apply skipn_more in E2. pose proof E2 as E3. apply skipn_more in E3.
    eapply fm_seq; [unfold OPTIONAL_BRACE, ropt; apply fm_alt_left; cbn [rseq]; eapply fm_seq; [eapply fm_is_ch; exact E|]; eapply fm_seq; [apply (fm_star _ _ _ _ s ([c_rk] ++ g2 ++ c_lb :: r))|eapply fm_is_ch]|].
    + rewrite <- Nat.add_1_r. exact E1.
    + apply forallb_forall. intros x I. destruct (N.eqb_spec x c_rk) as [->|_]; [contradiction|reflexivity].
    + reflexivity.
    + rewrite <- Nat.add_1_r. exact E2.
    + replace (length hd + 1) with (S (S (0 + length (lit "\titleline") + length g1) + length s) + length g2 + 1) by (unfold hd; len). apply (gap_fm _ _ _ g2 r); [|exact B2].
      rewrite <- (Nat.add_1_r (S _ + length s)), <- (Nat.add_1_r (0 + length (lit "\titleline") + length g1)). exact E3.
Qed.
Lemma spec_ends : forall head spec, title_command head spec -> (exists s0, spec = s0 ++ [c_lb]) /\ forall d, In d spec -> d = c_lb \/ d = c_lk.
Proof.
  intros head spec T. split.
  - destruct T; [exists (lit "{[{{{")|exists (lit "{{{")|exists []|exists (lit "{[{{{")|exists []|exists []]; reflexivity.
  - intros d I. destruct T; cbn in I; repeat (destruct I as [I|I]; [rewrite <- I; auto|]); contradiction.
Qed.
Lemma title_taken : forall head spec r rs p, title_command head spec -> args_at (c_lb :: r) spec rs p -> titlesec (head ++ c_lb :: r) = (None, length head + p).
Proof.
  intros head spec r rs p T A. destruct (spec_ends _ _ T) as (L & D). unfold titlesec. rewrite (title_read _ _ T r), (args_complete _ _ _ _ A L D). reflexivity.
Qed.
(** * Which texts are taken *)
Definition title_at (t : str) : Prop := exists head spec r, title_command head spec /\ t = head ++ c_lb :: r.
Lemma gap_rel : forall t i j, rel (RSeq (rstar rspace) (is_ch c_lb)) t i j -> exists g r, skipn i t = g ++ c_lb :: r /\ blank g /\ j = i + length g + 1.
Proof.
  intros t i j R. apply rel_rseq2 in R as (k & R1 & R2). apply rel_star_chr in R1 as (g & r & E & B & ->). apply rel_is_ch in R2 as (-> & r2 & E2). exists g, r2. apply skipn_more in E as E1. rewrite E2 in E1. rewrite E, <- E1. split; [reflexivity|]. split; [exact B|lia].
Qed.
Lemma head_rel : forall wd t j, rel (rseq [rstr (lit wd); rstar rspace; is_ch c_lb]) t 0 j -> exists g r, t = (lit wd ++ g) ++ c_lb :: r /\ blank g.
Proof.
  intros wd t j R. cbn [rseq] in R. apply rel_rseq2 in R as (k & R1 & R2). apply rel_rstr in R1 as (-> & r & E). apply gap_rel in R2 as (g & r2 & E2 & B & _). exists g, r2. split; [|exact B]. pose proof (skipn_more _ _ _ _ E) as E1. rewrite E2 in E1. change (skipn 0 t) with t in E. rewrite E, <- E1, app2. reflexivity.
Qed.
Lemma title_rel : forall p spec t j, In (p, spec) TITLE_PATTERNS -> rel p t 0 j -> title_at t.
Proof.
  intros p spec t j I R. assert (A : Forall (fun q => forall j, rel (fst q) t 0 j -> title_at t) TITLE_PATTERNS).
  2: { rewrite Forall_forall in A. exact (A _ I j R). }
  clear p spec j I R. unfold TITLE_PATTERNS. apply Forall_cons; [|apply Forall_cons; [|apply Forall_cons; [|apply Forall_cons; [|apply Forall_cons; [|apply Forall_nil]]]]]; cbn [fst]; intros j R.
  - apply head_rel in R as (g & r & E & B). exists (lit "\titleformat" ++ g). eexists. exists r. split; [apply tc_format; exact B|exact E].
  - cbn [rseq] in R. apply rel_rseq2 in R as (k & R1 & R2). apply rel_rstr in R1 as (-> & r & E). apply rel_rseq2 in R2 as (k & R2 & R3). apply gap_rel in R3 as (g & r2 & E2 & B & _). change (skipn 0 t) with t in E. pose proof (skipn_more t 0 _ _ E) as E1. apply LegacyProofs5.rel_opt in R2 as [R2| ->].
    + apply rel_rstr in R2 as (-> & r3 & E3). pose proof (skipn_more _ _ _ _ E3) as E4. rewrite E2 in E4. rewrite E3 in E1. exists (lit "\titlespacing" ++ lit "*" ++ g). eexists. exists r2. split; [apply tc_spacing; [right; reflexivity|exact B]|]. rewrite E, <- E1, <- E4, <- !app_assoc. reflexivity.
    + rewrite E2 in E1. exists (lit "\titlespacing" ++ [] ++ g). eexists. exists r2. split; [apply tc_spacing; [left; reflexivity|exact B]|]. rewrite E, <- E1, <- !app_assoc. reflexivity.
  - apply head_rel in R as (g & r & E & B). exists (lit "\titlelabel" ++ g). eexists. exists r. split; [apply tc_label; exact B|exact E].
  - apply head_rel in R as (g & r & E & B). exists (lit "\titlecontents" ++ g). eexists. exists r. split; [apply tc_contents; exact B|exact E].
  - cbn [rseq] in R. apply rel_rseq2 in R as (k & R1 & R2). apply rel_rstr in R1 as (-> & r & E). apply rel_rseq2 in R2 as (k & R2 & R3). apply rel_star_chr in R2 as (g1 & r1 & E1 & B1 & ->). apply rel_rseq2 in R3 as (k & R2 & R3). apply gap_rel in R3 as (g2 & r2 & E2 & B2 & _).
    change (skipn 0 t) with t in E. pose proof (skipn_more t 0 _ _ E) as F. rewrite E1 in F. pose proof (skipn_more _ _ _ _ E1) as F1. apply LegacyProofs5.rel_opt in R2 as [R2| ->].
    + cbn [rseq] in R2. apply rel_rseq2 in R2 as (k2 & R2 & R3). apply rel_is_ch in R2 as (-> & r3 & E3). apply rel_rseq2 in R3 as (k3 & R3 & R4). apply rel_star_chr in R3 as (s & r4 & E4 & B4 & ->). apply rel_is_ch in R4 as (-> & r5 & E5).
      change (c_lk :: r3) with ([c_lk] ++ r3) in E3. pose proof (skipn_more _ _ _ _ E3) as G1. cbn [List.length] in G1. rewrite Nat.add_1_r, E4 in G1. pose proof (skipn_more _ _ _ _ E4) as G2. change (c_rk :: r5) with ([c_rk] ++ r5) in E5. rewrite E5 in G2. pose proof (skipn_more _ _ _ _ E5) as G3. cbn [List.length] in G3. rewrite Nat.add_1_r, E2 in G3.
      exists (lit "\titleline" ++ g1 ++ [c_lk] ++ s ++ [c_rk] ++ g2). eexists. exists r2. split; [apply tc_line_at; [exact B1|exact B2|]|].
      * intros I. rewrite forallb_forall in B4. specialize (B4 _ I). rewrite N.eqb_refl in B4. discriminate B4.
      * rewrite E, <- F, <- F1, E3, <- G1, <- G2, <- G3, <- !app_assoc. reflexivity.
    + rewrite E2 in F1. exists (lit "\titleline" ++ g1 ++ g2). eexists. exists r2. split; [apply tc_line; unfold blank in *; rewrite forallb_app, B1, B2; reflexivity|]. rewrite E, <- F, <- F1, <- !app_assoc. reflexivity.
Qed.
Lemma loop_zero : forall ps t, (forall p s, In (p, s) ps -> re_match_at p t 0 = None) -> titlesec_loop ps t = 0.
Proof. induction ps as [|(p, s) ps IH]; intros t H; [reflexivity|]. cbn [titlesec_loop]. rewrite (H p s) by (left; reflexivity). apply IH. intros q s' I. apply (H q s'). right. exact I. Qed.
Lemma loop_can : forall ps t, existsb (fun p : re * str => match re_match_at (fst p) t 0 with Some _ => true | None => false end) ps = true -> exists p s m, In (p, s) ps /\ re_match_at p t 0 = Some m.
Proof. intros ps t H. apply existsb_exists in H as ((p, s) & I & H). cbn [fst] in H. destruct (re_match_at p t 0) as [m|] eqn:E; [|discriminate]. exists p, s, m. auto. Qed.
Lemma not_can : forall t, titlesec_can t = false -> forall p s, In (p, s) TITLE_PATTERNS -> re_match_at p t 0 = None.
Proof.
  intros t H p s I. destruct (re_match_at p t 0) as [m|] eqn:E; [|reflexivity]. unfold titlesec_can in H. assert (X : existsb (fun p : re * str => match re_match_at (fst p) t 0 with Some _ => true | None => false end) TITLE_PATTERNS = true) by (apply existsb_exists; exists (p, s); split; [exact I|cbn [fst]; rewrite E; reflexivity]). congruence.
Qed.
Lemma head_long : forall head spec, title_command head spec -> 10 <= length head.
Proof. intros head spec T. destruct T; len. Qed.
Lemma title_can : forall t, titlesec_can t = true <-> title_at t.
Proof.
  intros t. split.
  - intros H. apply loop_can in H as (p & s & m & I & E). apply re_match_at_some in E as (_ & R & _); [|lia]. eapply title_rel; [exact I|exact R].
  - intros (head & spec & r & T & ->). destruct (titlesec_can (head ++ c_lb :: r)) eqn:C; [reflexivity|exfalso].
    pose proof (title_read _ _ T r) as E. unfold reads_title in E. rewrite (loop_zero _ _ (not_can _ C)) in E. apply head_long in T. lia.
Qed.
Lemma title_bounds : forall t, titlesec_can t = true -> fst (titlesec t) = None /\ 0 < snd (titlesec t) <= length t.
Proof.
  intros t C. split; [reflexivity|]. apply title_can in C as (head & spec & r & T & ->). unfold titlesec. cbn [snd]. rewrite (title_read _ _ T r). destruct (spec_ends _ _ T) as (_ & D). destruct (extract_delimited_args_spec (c_lb :: r) spec D) as (? & ? & ? & ? & e & E & _ & _ & _ & L & _). rewrite E. cbn [snd]. rewrite app_length. apply head_long in T. lia.
Qed.
Lemma title_other : forall t, titlesec_can t = false -> titlesec t = (None, 0).
Proof. intros t C. unfold titlesec. rewrite (loop_zero _ _ (not_can _ C)). reflexivity. Qed.
