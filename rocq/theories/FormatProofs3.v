(** Formatting commands with groups (C101). *)
From Coq Require Import List NArith PeanoNat Lia Bool String.
From Verif Require Import PyStr Regex RegexLemmas RegexHead RegexAbs DelimSpec DelimProofs DelimProofs2 DelimFinal Json TexUtilsModel StyleModel StyleSpec CommandSpec FormatModel FormatSpec FormatProofs FormatProofs2.
From Verif Require DiacriticsProofs.
Import ListNotations. Notation length := List.length. Notation concat := List.concat. Open Scope list_scope.

Lemma group_end : forall body rest, good_body body -> extract_nested_content (c_lb :: body ++ [c_rb] ++ rest) c_lb c_rb = (Some body, S (S (length body))).
Proof. intros body rest B. apply (proj2 (extract_nested_content_iff _ _ _ _ _ delims_curly)). apply DiacriticsProofs.good_body_group. exact B. Qed.
Lemma group_same : forall s b n b' n', group_at c_lb c_rb s b n -> group_at c_lb c_rb s b' n' -> b = b' /\ n = n'.
Proof. intros s b n b' n' G G'. apply (proj2 (extract_nested_content_iff _ _ _ _ _ delims_curly)) in G. apply (proj2 (extract_nested_content_iff _ _ _ _ _ delims_curly)) in G'. rewrite G in G'. injection G' as -> ->. auto. Qed.
Lemma groups_same : forall s bs n, groups_at c_lb c_rb s bs n -> forall bs' n', groups_at c_lb c_rb s bs' n' -> length bs = length bs' -> n = n'.
Proof.
  intros s bs n G. induction G as [s|s b n bs m G1 G IH]; intros bs' n' G' L; inversion G' as [|? b' n1 bs1 m1 G2 G3]; subst; try discriminate; [reflexivity|].
  destruct (group_same _ _ _ _ _ G1 G2) as (-> & ->). rewrite (IH _ _ G3); [reflexivity|]. cbn in L. lia.
Qed.
Lemma groups_prefix : forall s bs n, groups_at c_lb c_rb s bs n -> forall bs' n', groups_at c_lb c_rb s bs' n' -> length bs' < length bs -> exists b k, group_at c_lb c_rb (skipn n' s) b k.
Proof.
  intros s bs n G. induction G as [s|s b n bs m G1 G IH]; intros bs' n' G' L; [cbn in L; lia|]. inversion G' as [|? b' n1 bs1 m1 G2 G3]; subst.
  - exists b, n. exact G1.
  - destruct (group_same _ _ _ _ _ G1 G2) as (-> & ->). destruct (IH _ _ G3) as (b2 & k & G4); [cbn in L; lia|]. exists b2, k. rewrite <- skipn_add. exact G4.
Qed.
Lemma blocks_all : forall s bs p k, groups_at c_lb c_rb s bs p -> length bs = k -> blocks_end s c_lb c_rb k = p.
Proof.
  intros s bs p k G L. unfold blocks_end. destruct (c03_blocks c_lb c_rb s (Some k) delims_curly) as (bs' & p' & E & G' & L' & N). rewrite E. cbn [snd].
  destruct (Nat.eq_dec (length bs') k) as [Ek|Nk]; [symmetry; apply (groups_same _ _ _ G _ _ G'); congruence|]. destruct (groups_prefix _ _ _ G _ _ G') as (b & n & X); [lia|]. destruct (N ltac:(lia) _ _ X).
Qed.
(** * The command, blanks and a brace *)
Definition brace_tail (T : re) : Prop := forall t i ws s j, blank ws -> skipn i t = ws ++ c_lb :: s -> (rel T t i j <-> j = i + length ws + 1).
Definition T0 : re := rseq [sp; rstr (lit "{")].
Lemma blank_run : forall ws (s ds r : str), blank ws -> ws ++ c_lb :: s = ds ++ r -> forallb isspace ds = true -> exists d, ws = ds ++ d /\ r = d ++ c_lb :: s.
Proof.
  intros ws s ds. revert ws. induction ds as [|x ds IH]; intros ws r B E F; [exists ws; split; [reflexivity|symmetry; exact E]|]. cbn in F. apply andb_prop in F as [Fx F]. destruct ws as [|y ws].
  - cbn in E. injection E as <- _. discriminate Fx.
  - cbn in E. injection E as -> E. unfold blank in B. cbn in B. apply andb_prop in B as [_ B]. destruct (IH ws r B E F) as (d & -> & ->). exists d. auto.
Qed.
Lemma rel_sp : forall t i ws s j, blank ws -> skipn i t = ws ++ c_lb :: s -> rel sp t i j -> exists a d, ws = a ++ d /\ j = i + length a /\ skipn j t = d ++ c_lb :: s.
Proof.
  intros t i ws s j B E R. apply rel_star_chr in R as (ds & r & E1 & F & ->). rewrite E in E1. destruct (blank_run _ _ _ _ B E1 F) as (d & Ew & ->). exists ds, d. split; [exact Ew|]. split; [reflexivity|]. rewrite <- skipn_add, E, E1. apply skipn_app_exact. reflexivity.
Qed.
Lemma rel_lb : forall t i d s j, blank d -> skipn i t = d ++ c_lb :: s -> rel (rstr (lit "{")) t i j -> d = [] /\ j = i + 1.
Proof. intros t i d s j B E R. apply rel_rstr in R as (-> & q & E2). rewrite E in E2. destruct d as [|x d]; [auto|]. cbn in E2. injection E2 as -> _. discriminate B. Qed.
Lemma blank_part : forall a d, blank (a ++ d) -> blank a /\ blank d.
Proof. intros a d B. unfold blank in *. rewrite forallb_app in B. apply andb_prop in B. exact B. Qed.
Lemma brace_T0 : brace_tail T0.
Proof.
  intros t i ws s j B E. split.
  - intros R. unfold T0 in R. cbn [rseq] in R. apply rel_rseq2 in R as (k & R1 & R2). apply (rel_sp _ _ _ _ _ B E) in R1 as (a & d & -> & -> & E2). apply blank_part in B as (_ & Bd). apply (rel_lb _ _ _ _ _ Bd E2) in R2 as (-> & ->). rewrite app_nil_r. reflexivity.
  - intros ->. unfold T0. cbn [rseq]. apply rel_rseq2. exists (i + length ws). split; [apply rel_star_chr; exists ws, (c_lb :: s); split; [exact E|split; [exact B|reflexivity]]|]. apply rel_rstr. split; [reflexivity|]. exists s. rewrite <- skipn_add, E. apply skipn_app_exact. reflexivity.
Qed.
Lemma rel_OPT : forall t i d s j, skipn i t = d ++ c_lb :: s -> blank d -> rel OPT t i j -> j = i.
Proof.
  intros t i d s j E B R. unfold OPT in R. apply LegacyProofs5.rel_opt in R as [R|R]; [|exact R]. cbn [rseq] in R. apply rel_rseq2 in R as (k & R & _). apply rel_rstr in R as (_ & q & E2). rewrite E in E2. destruct d as [|x d]; cbn in E2; [discriminate|]. injection E2 as -> _. discriminate B.
Qed.
Lemma OPT_eps : forall t i, rel OPT t i i.
Proof. intros t i. unfold OPT, ropt. apply rel_altr. constructor. Qed.
Lemma brace_T1 : brace_tail (rseq [OPT; sp; rstr (lit "{")]).
Proof.
  intros t i ws s j B E. rewrite <- (brace_T0 t i ws s j B E). unfold T0. cbn [rseq]. split.
  - intros R. apply rel_rseq2 in R as (k & R1 & R). apply (rel_OPT _ _ _ _ _ E B) in R1 as ->. exact R.
  - intros R. apply rel_rseq2. exists i. split; [apply OPT_eps|exact R].
Qed.
Lemma brace_T2 : brace_tail (rseq [sp; OPT; sp; rstr (lit "{")]).
Proof.
  intros t i ws s j B E. split.
  - intros R. cbn [rseq] in R. apply rel_rseq2 in R as (k & R1 & R). apply (rel_sp _ _ _ _ _ B E) in R1 as (a & d & -> & -> & E2). apply blank_part in B as (_ & Bd). apply (brace_T1 _ _ _ _ _ Bd E2) in R. rewrite app_length. lia.
  - intros ->. cbn [rseq]. apply rel_rseq2. exists i. split; [apply rel_star_chr; exists [], (ws ++ c_lb :: s); split; [exact E|split; [reflexivity|cbn; lia]]|]. apply (brace_T1 _ _ _ _ _ B E). reflexivity.
Qed.
Lemma brace_T3 : brace_tail (rseq [ropt (rstr (lit "*")); sp; rstr (lit "{")]).
Proof.
  intros t i ws s j B E. rewrite <- (brace_T0 t i ws s j B E). unfold T0. cbn [rseq]. split.
  - intros R. apply rel_rseq2 in R as (k & R1 & R). apply LegacyProofs5.rel_opt in R1 as [R1| ->]; [|exact R]. exfalso. apply rel_rstr in R1 as (_ & q & E2). rewrite E in E2. destruct ws as [|x ws]; cbn in E2; [discriminate|]. injection E2 as -> _. discriminate B.
  - intros R. apply rel_rseq2. exists i. split; [apply rel_altr; constructor|exact R].
Qed.
Lemma assoc : forall a b c t i j, rel (RSeq a (RSeq b c)) t i j <-> rel (RSeq (RSeq a b) c) t i j.
Proof.
  intros a b c t i j. rewrite !rel_rseq2. split.
  - intros (k & R1 & R). apply rel_rseq2 in R as (l & R2 & R3). exists l. split; [apply rel_rseq2; exists k; auto|exact R3].
  - intros (k & R & R3). apply rel_rseq2 in R as (l & R1 & R2). exists l. split; [exact R1|]. apply rel_rseq2. exists k. auto.
Qed.
Section P.
Variable u : ch -> bool.
Variable quantize : str -> str -> option str.
Lemma group_match : forall r hd T p ws s, (forall t i j, rel r t i j <-> rel (RSeq hd T) t i j) -> brace_tail T -> (forall rest, bok rest hd) -> blank ws -> ends_only p hd (length p) = true -> ends_at p hd (length p) = true ->
  exists m, re_match_at r (p ++ ws ++ c_lb :: s) 0 = Some m /\ m_start m = 0 /\ m_end m = length p + length ws + 1.
Proof.
  intros r hd T p ws s Er BT Bk B E1 E2. assert (Es : skipn (length p) (p ++ ws ++ c_lb :: s) = ws ++ c_lb :: s) by (apply skipn_app_exact; reflexivity). apply match_end.
  - apply Er. apply rel_rseq2. exists (length p). split; [apply some_end; [apply Bk|exact E2]|]. apply (BT _ _ _ _ _ B Es). reflexivity.
  - intros j R. apply Er in R. apply rel_rseq2 in R as (k & R1 & R2). apply (only_end p hd _ _ _ E1) in R1 as ->. apply (BT _ _ _ _ _ B Es) in R2. exact R2.
Qed.
(** the patterns that come before do not match *)
Fixpoint apart (word : string) (T : list (string * (re * action))) (own : string) : bool :=
  let p := lit "\" ++ lit word in
  match T with
  | [] => false
  | (name, (r, a)) :: T' =>
      if String.eqb name own then true
      else (dead p r || (String.eqb name "make_or_contents" && negb (occurs_in (lit "maketitle") (lit word)) && dead p (MKREST u))) && apart word T' own
  end.
Fixpoint after (T : list (string * (re * action))) (own : string) : list (string * (re * action)) :=
  match T with [] => [] | (name, e) :: T' => if String.eqb name own then (name, e) :: T' else after T' own end.
Lemma make_none' : forall word rest, (forall x r, rest = x :: r -> name_b x = false) -> occurs_in (lit "maketitle") word = false -> dead (lit "\" ++ word) (MKREST u) = true -> re_match_at (P_make_or_contents u) ((lit "\" ++ word) ++ rest) 0 = None.
Proof.
  intros word rest H O D. destruct (re_match_at (P_make_or_contents u) ((lit "\" ++ word) ++ rest) 0) as [m|] eqn:M; [|reflexivity]. exfalso. apply match_rel in M as (_ & R). apply make_inv in R as [(k & R & _)|R].
  - change ((lit "\" ++ word) ++ rest) with (c_bs :: word ++ rest) in R. apply mk1_inv in R as (n & d & E & _); [|exact H]. subst word. rewrite occurs_ok in O. discriminate.
  - exact (dead_rel _ _ _ _ D R).
Qed.
Lemma apart_ok : forall word own rest prev T, (forall x r, rest = x :: r -> name_b x = false) -> (forall e, In e T -> In e (TABLE u)) -> apart word T own = true ->
  try_table quantize T [] ((lit "\" ++ lit word) ++ rest) prev = try_table quantize (after T own) [] ((lit "\" ++ lit word) ++ rest) prev.
Proof.
  intros word own rest prev T H. induction T as [|(name, (r, a)) T IH]; intros S A; [discriminate|]. cbn [apart] in A. cbn [after]. destruct (String.eqb name own); [reflexivity|]. apply andb_prop in A as [A1 A2].
  specialize (IH (fun e I => S e (or_intror I)) A2). rewrite <- IH. cbn [try_table existsb].
  apply orb_prop in A1 as [A1|A1]; [rewrite (dead_none _ r rest A1); reflexivity|]. apply andb_prop in A1 as [A1 A3]. apply andb_prop in A1 as [A1 A4]. apply String.eqb_eq in A1. apply negb_true_iff in A4.
  rewrite (named_make u _ _ _ (S _ (or_introl eq_refl)) A1). rewrite (make_none' _ _ H A4 A3). reflexivity.
Qed.
Lemma gap_no_name : forall ws s x r, blank ws -> ws ++ c_lb :: s = x :: r -> name_b x = false.
Proof.
  intros ws s x r B E. assert (C : x = c_lb \/ isspace x = true). { destruct ws as [|y ws]; [left; cbn in E; injection E as <- _; reflexivity|right]. cbn in E. injection E as -> _. unfold blank in B. cbn in B. apply andb_prop in B as [B _]. exact B. }
  destruct C as [->|C]; [reflexivity|]. unfold name_b. destruct (StyleModel.is_letter x || (x =? 64)%N) eqn:F; [|reflexivity]. exfalso. unfold StyleModel.is_letter, isspace, in_range in *. repeat rewrite ?Bool.orb_true_iff, ?Bool.andb_true_iff, ?N.leb_le, ?N.eqb_eq in *. lia.
Qed.
(** what is done with the group *)
Definition grouped (cmd : string) (r : re) (a : action) (name : string) : Prop :=
  (exists hd T, (forall t i j, rel r t i j <-> rel (RSeq hd T) t i j) /\ brace_tail T /\ (forall rest, bok rest hd) /\ ends_only (lit "\" ++ lit cmd) hd (length (lit "\" ++ lit cmd)) = true /\ ends_at (lit "\" ++ lit cmd) hd (length (lit "\" ++ lit cmd)) = true) /\
  apart cmd (TABLE u) name = true /\ (exists T', after (TABLE u) name = (name, (r, a)) :: T') /\ (forall X, startswith ((lit "\" ++ lit cmd) ++ X) (lit "\baselineskip") = false).
Lemma grouped_act : forall cmd r a name ws s prev, grouped cmd r a name -> blank ws ->
  exists m, m_end m = length (lit "\" ++ lit cmd) + length ws + 1 /\ fmt_handle u quantize [] prev ((lit "\" ++ lit cmd) ++ ws ++ c_lb :: s) = act quantize ((lit "\" ++ lit cmd) ++ ws ++ c_lb :: s) prev a m
    /\ re_match_at r ((lit "\" ++ lit cmd) ++ ws ++ c_lb :: s) 0 = Some m.
Proof.
  intros cmd r a name ws s prev ((hd & T & Er & BT & Bk & E1 & E2) & A & (T' & Ea) & _) B. destruct (group_match r hd T (lit "\" ++ lit cmd) ws s Er BT Bk B E1 E2) as (m & Em & _ & El). exists m. split; [exact El|].
  split; [|exact Em]. unfold fmt_handle. rewrite (apart_ok cmd name (ws ++ c_lb :: s) prev (TABLE u) (fun x r0 => gap_no_name ws s x r0 B) (fun e I => I) A). rewrite Ea. cbn [try_table existsb]. rewrite Em. reflexivity.
Qed.
Lemma first_part : forall p ws (s : str), firstn (length p + length ws + 1) (p ++ ws ++ c_lb :: s) = p ++ ws ++ [c_lb].
Proof. intros p ws s. replace (p ++ ws ++ c_lb :: s) with ((p ++ ws ++ [c_lb]) ++ s) by (rewrite <- !app_assoc; reflexivity). apply firstn_app_exact. rewrite !app_length. cbn. lia. Qed.
Lemma group_part : forall p ws (s : str), skipn (length p + length ws + 1 - 1) (p ++ ws ++ c_lb :: s) = c_lb :: s.
Proof. intros p ws s. replace (length p + length ws + 1 - 1) with (length p + length ws) by lia. rewrite <- skipn_add, skipn_app_exact by reflexivity. apply skipn_app_exact. reflexivity. Qed.
Lemma blocks_one : forall body rest, good_body body -> blocks_end (c_lb :: body ++ [c_rb] ++ rest) c_lb c_rb 1 = S (S (length body)).
Proof. intros body rest B. replace (S (S (length body))) with (S (S (length body)) + 0) by lia. apply (blocks_all _ [body]); [|reflexivity]. econstructor; [apply DiacriticsProofs.good_body_group; exact B|constructor]. Qed.
Definition group_out (cmd : string) (a : action) (body : str) : option (option val) :=
  match a with
  | AGroup | ABlocks 1 => Some None
  | AEnsure => Some (Some (VDict [(lit "type", VStr (lit "equation")); (lit "content", VStr body); (lit "display", VStr (lit "inline"))]))
  | APhantom => Some (Some (text_token (if String.eqb cmd "hphantom" then repeat c_sp (length body) else [10%N])))
  | _ => None
  end.
Lemma grouped_ok : forall cmd r a name ws body rest prev t, grouped cmd r a name -> group_out cmd a body = Some t -> (a = APhantom -> forall X, startswith ((lit "\" ++ lit cmd) ++ X) (lit "\hphantom") = String.eqb cmd "hphantom") -> blank ws -> good_body body ->
  fmt_handle u quantize [] prev ((lit "\" ++ lit cmd) ++ ws ++ [c_lb] ++ body ++ [c_rb] ++ rest) = Ok (t, length ((lit "\" ++ lit cmd) ++ ws ++ [c_lb] ++ body ++ [c_rb]), prev).
Proof.
  intros cmd r a name ws body rest prev t G O Ph B Gb. set (p := lit "\" ++ lit cmd) in *. change ([c_lb] ++ body ++ [c_rb] ++ rest) with (c_lb :: (body ++ [c_rb] ++ rest)).
  destruct (grouped_act cmd r a name ws (body ++ [c_rb] ++ rest) prev G B) as (m & El & Ef & _). fold p in El, Ef. rewrite Ef. destruct G as (_ & _ & _ & Nb). fold p in Nb.
  assert (El2 : length (p ++ ws ++ [c_lb] ++ body ++ [c_rb]) = length p + length ws + S (S (length body))) by (rewrite !app_length; cbn [List.length]; lia). rewrite El2.
  unfold act. cbv zeta. rewrite El, first_part, group_part, Nb. rewrite (group_end body rest Gb). cbn [snd]. replace (length p + length ws + 1 - 1) with (length p + length ws) by lia.
  destruct a as [| | | | | |n| | | | | |]; try discriminate; cbn [group_out] in O.
  - injection O as <-. reflexivity.
  - destruct n as [|[|n]]; try discriminate. injection O as <-. rewrite (blocks_one body rest Gb). reflexivity.
  - injection O as <-. reflexivity.
  - injection O as <-. rewrite (Ph eq_refl). destruct (String.eqb cmd "hphantom"); reflexivity.
Qed.
Ltac grp hd T bt := split; [exists hd, T; split; [first [intros; reflexivity|intros; apply assoc]|split; [exact bt|split; [intros; repeat (exact Logic.I || split)|split; vm_compute; reflexivity]]]|split; [vm_compute; reflexivity|split; [eexists; reflexivity|intros X; vm_compute; reflexivity]]].
Lemma g_hypersetup : grouped "hypersetup" P_setup AGroup "setup".
Proof. grp (RSeq (rstr (lit "\")) (words ["hypersetup"; "captionsetup"]%string)) (rseq [OPT; sp; rstr (lit "{")]) brace_T1. Qed.
Lemma g_captionsetup : grouped "captionsetup" P_setup AGroup "setup".
Proof. grp (RSeq (rstr (lit "\")) (words ["hypersetup"; "captionsetup"]%string)) (rseq [OPT; sp; rstr (lit "{")]) brace_T1. Qed.
Lemma g_lstset : grouped "lstset" P_lstset AGroup "lstset".
Proof. grp (rstr (lit "\lstset")) T0 brace_T0. Qed.
Lemma g_setlist : grouped "setlist" P_setlist AGroup "setlist".
Proof. grp (rstr (lit "\setlist")) (rseq [sp; OPT; sp; rstr (lit "{")]) brace_T2. Qed.
Lemma g_geometry : grouped "geometry" P_geometry AGroup "geometry".
Proof. grp (rstr (lit "\geometry")) T0 brace_T0. Qed.
Lemma g_hyphenation : grouped "hyphenation" P_hyphenation AGroup "hyphenation".
Proof. grp (rstr (lit "\hyphenation")) T0 brace_T0. Qed.
Lemma g_typeout : grouped "typeout" P_typeout AGroup "typeout".
Proof. grp (rstr (lit "\typeout")) T0 brace_T0. Qed.
Lemma g_pdfinfo : grouped "pdfinfo" P_pdfinfo AGroup "pdfinfo".
Proof. grp (rstr (lit "\pdfinfo")) T0 brace_T0. Qed.
Lemma g_date : grouped "date" P_date AGroup "date".
Proof. grp (rstr (lit "\date")) T0 brace_T0. Qed.
Lemma g_tcbset : grouped "tcbset" P_tcb (ABlocks 1) "tcb".
Proof. grp (RSeq (rstr (lit "\")) (words ["tcbset"; "tcbuselibrary"]%string)) T0 brace_T0. Qed.
Lemma g_tcbuselibrary : grouped "tcbuselibrary" P_tcb (ABlocks 1) "tcb".
Proof. grp (RSeq (rstr (lit "\")) (words ["tcbset"; "tcbuselibrary"]%string)) T0 brace_T0. Qed.
Lemma g_ensuremath : grouped "ensuremath" P_ensuremath AEnsure "ensuremath".
Proof. grp (rstr (lit "\ensuremath")) T0 brace_T0. Qed.
Lemma g_hphantom : grouped "hphantom" P_phantom APhantom "phantom".
Proof. grp (RSeq (rstr (lit "\")) (words ["hphantom"; "vphantom"; "phantom"]%string)) T0 brace_T0. Qed.
Lemma g_vphantom : grouped "vphantom" P_phantom APhantom "phantom".
Proof. grp (RSeq (rstr (lit "\")) (words ["hphantom"; "vphantom"; "phantom"]%string)) T0 brace_T0. Qed.
Lemma g_phantom : grouped "phantom" P_phantom APhantom "phantom".
Proof. grp (RSeq (rstr (lit "\")) (words ["hphantom"; "vphantom"; "phantom"]%string)) T0 brace_T0. Qed.
Theorem setup_ok : forall cmd ws body rest prev, In cmd setup_commands -> blank ws -> good_body body ->
  fmt_handle u quantize [] prev ((lit "\" ++ lit cmd) ++ ws ++ [c_lb] ++ body ++ [c_rb] ++ rest) = Ok (None, length ((lit "\" ++ lit cmd) ++ ws ++ [c_lb] ++ body ++ [c_rb]), prev).
Proof.
  intros cmd ws body rest prev I B G. unfold setup_commands in I. cbn [In] in I.
  repeat (destruct I as [<-|I]; [eapply grouped_ok; [first [exact g_hypersetup|exact g_captionsetup|exact g_lstset|exact g_setlist|exact g_geometry|exact g_hyphenation|exact g_typeout|exact g_pdfinfo|exact g_date|exact g_tcbset|exact g_tcbuselibrary]|reflexivity|discriminate|exact B|exact G]|]). destruct I.
Qed.
Theorem ensure_ok : forall ws body rest prev, blank ws -> good_body body ->
  fmt_handle u quantize [] prev (lit "\ensuremath" ++ ws ++ [c_lb] ++ body ++ [c_rb] ++ rest) =
  Ok (Some (VDict [(lit "type", VStr (lit "equation")); (lit "content", VStr body); (lit "display", VStr (lit "inline"))]), length (lit "\ensuremath" ++ ws ++ [c_lb] ++ body ++ [c_rb]), prev).
Proof. intros ws body rest prev B G. apply (grouped_ok "ensuremath" _ _ _ ws body rest prev _ g_ensuremath); [reflexivity|discriminate|exact B|exact G]. Qed.
Theorem hphantom_ok : forall ws body rest prev, blank ws -> good_body body ->
  fmt_handle u quantize [] prev (lit "\hphantom" ++ ws ++ [c_lb] ++ body ++ [c_rb] ++ rest) = Ok (Some (text_token (repeat c_sp (length body))), length (lit "\hphantom" ++ ws ++ [c_lb] ++ body ++ [c_rb]), prev).
Proof. intros ws body rest prev B G. apply (grouped_ok "hphantom" _ _ _ ws body rest prev _ g_hphantom); [reflexivity|intros _ X; vm_compute; reflexivity|exact B|exact G]. Qed.
Theorem phantom_ok : forall cmd ws body rest prev, In cmd ["phantom"; "vphantom"]%string -> blank ws -> good_body body ->
  fmt_handle u quantize [] prev ((lit "\" ++ lit cmd) ++ ws ++ [c_lb] ++ body ++ [c_rb] ++ rest) = Ok (Some (text_token [10%N]), length ((lit "\" ++ lit cmd) ++ ws ++ [c_lb] ++ body ++ [c_rb]), prev).
Proof.
  intros cmd ws body rest prev [<-|[<-|[]]] B G.
  - apply (grouped_ok "phantom" _ _ _ ws body rest prev _ g_phantom); [reflexivity|intros _ X; vm_compute; reflexivity|exact B|exact G].
  - apply (grouped_ok "vphantom" _ _ _ ws body rest prev _ g_vphantom); [reflexivity|intros _ X; vm_compute; reflexivity|exact B|exact G].
Qed.
(** an unclosed \hphantom raises *)
Theorem hphantom_unclosed : forall ws s prev, blank ws -> (forall b n, ~ group_at c_lb c_rb (c_lb :: s) b n) -> fmt_handle u quantize [] prev (lit "\hphantom" ++ ws ++ c_lb :: s) = Raise TypeError.
Proof.
  intros ws s prev B N. destruct (grouped_act "hphantom" _ _ _ ws s prev g_hphantom B) as (m & El & Ef & _). change (lit "\hphantom") with (lit "\" ++ lit "hphantom"). rewrite Ef. set (p := lit "\" ++ lit "hphantom") in *.
  unfold act. cbv zeta. rewrite El, first_part, group_part. destruct (c02_outcomes c_lb c_rb (c_lb :: s) delims_curly) as [E|(ct & n & E & _)]; [|exfalso; apply (N ct n); apply (proj1 (extract_nested_content_iff _ _ _ _ _ delims_curly)); exact E].
  rewrite E. reflexivity.
Qed.
(** any other unclosed group stays in the text, the command is removed *)
Theorem setup_unclosed : forall cmd ws s prev, In cmd setup_commands -> blank ws -> (forall b n, ~ group_at c_lb c_rb (c_lb :: s) b n) ->
  fmt_handle u quantize [] prev ((lit "\" ++ lit cmd) ++ ws ++ c_lb :: s) = Ok (None, length ((lit "\" ++ lit cmd) ++ ws), prev).
Proof.
  intros cmd ws s prev I B N.
  assert (Z : extract_nested_content (c_lb :: s) c_lb c_rb = (None, 0)). { destruct (c02_outcomes c_lb c_rb (c_lb :: s) delims_curly) as [E|(ct & n & E & _)]; [exact E|exfalso; apply (N ct n); apply (proj1 (extract_nested_content_iff _ _ _ _ _ delims_curly)); exact E]. }
  assert (Z2 : blocks_end (c_lb :: s) c_lb c_rb 1 = 0). { unfold blocks_end. destruct (c03_blocks c_lb c_rb (c_lb :: s) (Some 1) delims_curly) as (bs & p & E & G & L & _). rewrite E. cbn [snd]. inversion G as [|? b n bs' m G1 G2]; subst; [reflexivity|]. destruct (N _ _ G1). }
  assert (K : forall r a name, grouped cmd r a name -> (a = AGroup \/ a = ABlocks 1) -> fmt_handle u quantize [] prev ((lit "\" ++ lit cmd) ++ ws ++ c_lb :: s) = Ok (None, length ((lit "\" ++ lit cmd) ++ ws), prev)).
  { intros r a name G Ha. destruct (grouped_act cmd r a name ws s prev G B) as (m & El & Ef & _). rewrite Ef. destruct G as (_ & _ & _ & Nb). set (p := lit "\" ++ lit cmd) in *. unfold act. cbv zeta. rewrite El, first_part, group_part, Nb, app_length. assert (Q : length p + length ws + 1 - 1 + 0 = length p + length ws) by lia. destruct Ha as [->| ->]; [rewrite Z|rewrite Z2]; cbn [snd]; rewrite Q; reflexivity. }
  unfold setup_commands in I. cbn [In] in I.
  repeat (destruct I as [<-|I]; [eapply K; [first [exact g_hypersetup|exact g_captionsetup|exact g_lstset|exact g_setlist|exact g_geometry|exact g_hyphenation|exact g_typeout|exact g_pdfinfo|exact g_date|exact g_tcbset|exact g_tcbuselibrary]|first [left; reflexivity|right; reflexivity]]|]). destruct I.
Qed.
End P.
