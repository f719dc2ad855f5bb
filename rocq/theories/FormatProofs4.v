(** Formatting commands with an argument that has no closing brace inside (C101). *)
From Coq Require Import List NArith PeanoNat Lia Bool String.
From Verif Require Import PyStr Regex RegexLemmas RegexHead RegexAbs DelimSpec DelimProofs DelimProofs2 DelimFinal Json TexUtilsModel StyleModel StyleSpec CommandSpec FormatModel FormatSpec FormatProofs FormatProofs2 FormatProofs3.
Import ListNotations. Notation length := List.length. Notation concat := List.concat. Open Scope list_scope.

Definition arg_tail (T : re) (ok : str -> Prop) : Prop := forall t i ws a rest j, blank ws -> ~ In c_rb a -> ok a -> skipn i t = ws ++ [c_lb] ++ a ++ [c_rb] ++ rest -> (rel T t i j <-> j = i + length ws + 1 + length a + 1).
Lemma body_run : forall (a rest ds r : str), ~ In c_rb a -> a ++ [c_rb] ++ rest = ds ++ r -> forallb (fun x => negb (N.eqb x c_rb)) ds = true -> exists d, a = ds ++ d /\ r = d ++ [c_rb] ++ rest.
Proof.
  intros a rest ds. revert a. induction ds as [|x ds IH]; intros a r N E F; [exists a; split; [reflexivity|symmetry; exact E]|]. cbn in F. apply andb_prop in F as [Fx F]. destruct a as [|y a].
  - cbn in E. injection E as <- _. discriminate Fx.
  - cbn in E. injection E as -> E. destruct (IH a r) as (d & -> & ->); [intros I; apply N; right; exact I|exact E|exact F|]. exists d. auto.
Qed.
Lemma no_rb_all : forall a : str, ~ In c_rb a -> forallb (fun x => negb (N.eqb x c_rb)) a = true.
Proof. intros a N. apply forallb_forall. intros x I. destruct (N.eqb_spec x c_rb) as [->|_]; [contradiction|reflexivity]. Qed.
Lemma rel_rb : forall t i d rest j, ~ In c_rb d -> skipn i t = d ++ [c_rb] ++ rest -> rel (rstr (lit "}")) t i j -> d = [] /\ j = i + 1.
Proof. intros t i d rest j N E R. apply rel_rstr in R as (-> & q & E2). rewrite E in E2. destruct d as [|x d]; [auto|]. cbn in E2. injection E2 as -> _. exfalso. apply N. left. reflexivity. Qed.
Lemma inner_arg : forall t i a rest j, ~ In c_rb a -> skipn i t = a ++ [c_rb] ++ rest -> (rel (RSeq (rstar no_rb) (rstr (lit "}"))) t i j <-> j = i + length a + 1).
Proof.
  intros t i a rest j N E. split.
  - intros R. apply rel_rseq2 in R as (k & R1 & R2). apply rel_star_chr in R1 as (ds & r & E1 & F & ->). rewrite E in E1. destruct (body_run _ _ _ _ N E1 F) as (d & Ea & ->).
    assert (Ed : skipn (i + length ds) t = d ++ [c_rb] ++ rest) by (rewrite <- skipn_add, E, E1; apply skipn_app_exact; reflexivity). apply (rel_rb _ _ d rest) in R2 as (-> & ->); [subst a; rewrite app_nil_r; reflexivity| |exact Ed]. intros I. apply N. rewrite Ea. apply in_or_app. right. exact I.
  - intros ->. apply rel_rseq2. exists (i + length a). split; [apply rel_star_chr; exists a, ([c_rb] ++ rest); split; [exact E|split; [apply no_rb_all; exact N|reflexivity]]|]. apply rel_rstr. split; [reflexivity|]. exists rest. rewrite <- skipn_add, E. apply skipn_app_exact. reflexivity.
Qed.
Lemma arg_any : arg_tail ARG (fun _ => True).
Proof.
  intros t i ws a rest j B N _ E. unfold ARG. cbn [rseq].
  assert (Q : rel (RSeq sp (RSeq (rstr (lit "{")) (RSeq (rstar no_rb) (rstr (lit "}"))))) t i j <-> exists k, rel T0 t i k /\ rel (RSeq (rstar no_rb) (rstr (lit "}"))) t k j).
  { rewrite assoc, rel_rseq2. reflexivity. }
  rewrite Q. change ([c_lb] ++ a ++ [c_rb] ++ rest) with (c_lb :: a ++ [c_rb] ++ rest) in E. pose proof (fun k => brace_T0 t i ws (a ++ [c_rb] ++ rest) k B E) as Hk.
  assert (Ek : skipn (i + length ws + 1) t = a ++ [c_rb] ++ rest) by (rewrite <- Nat.add_assoc, <- skipn_add, E, <- skipn_add, skipn_app_exact by reflexivity; reflexivity). split.
  - intros (k & R1 & R2). apply Hk in R1 as ->. apply (inner_arg _ _ _ _ _ N Ek) in R2. lia.
  - intros ->. exists (i + length ws + 1). split; [apply Hk; reflexivity|]. apply (inner_arg _ _ _ _ _ N Ek). lia.
Qed.
Lemma arg_some : arg_tail ARG1 (fun a => a <> []).
Proof.
  intros t i ws a rest j B N Ne E. destruct a as [|x a]; [congruence|]. unfold ARG1. cbn [rseq]. unfold rplus.
  assert (Q : rel (RSeq sp (RSeq (rstr (lit "{")) (RSeq (RSeq no_rb (rstar no_rb)) (rstr (lit "}"))))) t i j <-> exists k, rel T0 t i k /\ rel (RSeq (RSeq no_rb (rstar no_rb)) (rstr (lit "}"))) t k j).
  { rewrite assoc, rel_rseq2. reflexivity. }
  change (RStar true no_rb) with (rstar no_rb). rewrite Q. change ([c_lb] ++ (x :: a) ++ [c_rb] ++ rest) with (c_lb :: (x :: a) ++ [c_rb] ++ rest) in E. pose proof (fun k => brace_T0 t i ws ((x :: a) ++ [c_rb] ++ rest) k B E) as Hk.
  assert (Ek : skipn (i + length ws + 1) t = x :: a ++ [c_rb] ++ rest) by (rewrite <- Nat.add_assoc, <- skipn_add, E, <- skipn_add, skipn_app_exact by reflexivity; reflexivity).
  assert (Nx : x <> c_rb) by (intros ->; apply N; left; reflexivity). assert (Na : ~ In c_rb a) by (intros I; apply N; right; exact I).
  assert (In1 : forall k, rel (RSeq (RSeq no_rb (rstar no_rb)) (rstr (lit "}"))) t (i + length ws + 1) k <-> k = i + length ws + 1 + length (x :: a) + 1).
  { intros k. rewrite <- assoc, rel_rseq2. pose proof (skipn_S_tl _ _ _ _ Ek) as Es. split.
    - intros (l & R1 & R2). apply LegacyProofs5.chr_inv in R1 as (-> & _). apply (inner_arg _ _ _ _ _ Na Es) in R2. cbn [List.length]. lia.
    - intros ->. exists (S (i + length ws + 1)). split; [apply rel_chr with (x := x); [rewrite nth_error_skipn, Ek; reflexivity|apply N.eqb_neq in Nx; rewrite Nx; reflexivity]|]. apply (inner_arg _ _ _ _ _ Na Es). cbn [List.length]. lia. }
  split.
  - intros (k & R1 & R2). apply Hk in R1 as ->. apply In1 in R2. exact R2.
  - intros ->. exists (i + length ws + 1). split; [apply Hk; reflexivity|]. apply In1. reflexivity.
Qed.
Section P.
Variable u : ch -> bool.
Variable quantize : str -> str -> option str.
Definition argued (cmd : string) (r : re) (a : action) (name : string) (ok : str -> Prop) : Prop :=
  (exists hd T, (forall rest j, rel r ((lit "\" ++ lit cmd) ++ rest) 0 j <-> rel (RSeq hd T) ((lit "\" ++ lit cmd) ++ rest) 0 j) /\ arg_tail T ok /\ (forall rest, bok rest hd) /\ ends_only (lit "\" ++ lit cmd) hd (length (lit "\" ++ lit cmd)) = true /\ ends_at (lit "\" ++ lit cmd) hd (length (lit "\" ++ lit cmd)) = true) /\
  apart u cmd (TABLE u) name = true /\ (exists T', after (TABLE u) name = (name, (r, a)) :: T').
Definition arg_out (p : str) (a : action) : option (option val) := match a with ADrop => if startswith p (lit "\baselineskip") then None else Some None | AText s => Some (Some (text_token s)) | ASpacing => Some (Some (text_token [c_sp])) | _ => None end.
Lemma argued_ok : forall cmd r a name ok ws arg rest prev t, argued cmd r a name ok -> arg_out [] a = Some t -> (forall X, startswith ((lit "\" ++ lit cmd) ++ X) (lit "\baselineskip") = false) -> (forall X, str_eqb ((lit "\" ++ lit cmd) ++ X) (lit "\!") = false) ->
  blank ws -> ~ In c_rb arg -> ok arg ->
  fmt_handle u quantize [] prev ((lit "\" ++ lit cmd) ++ ws ++ [c_lb] ++ arg ++ [c_rb] ++ rest) = Ok (t, length ((lit "\" ++ lit cmd) ++ ws ++ [c_lb] ++ arg ++ [c_rb]), prev).
Proof.
  intros cmd r a name ok ws arg rest prev t ((hd & T & Er & BT & Bk & E1 & E2) & A & (T' & Ea)) O Nb Nx B Na Ok1. set (p := lit "\" ++ lit cmd) in *. set (t0 := p ++ ws ++ [c_lb] ++ arg ++ [c_rb] ++ rest).
  assert (Es : skipn (length p) t0 = ws ++ [c_lb] ++ arg ++ [c_rb] ++ rest) by (apply skipn_app_exact; reflexivity).
  set (n := length (p ++ ws ++ [c_lb] ++ arg ++ [c_rb])). assert (En : n = length p + length ws + 1 + length arg + 1) by (unfold n; rewrite !app_length; cbn [List.length]; lia).
  destruct (match_end r t0 n) as (m & Em & _ & El).
  - apply Er. apply rel_rseq2. exists (length p). split; [apply some_end; [apply Bk|exact E2]|]. apply (BT _ _ _ _ _ _ B Na Ok1 Es). exact En.
  - intros j R. apply Er in R. apply rel_rseq2 in R as (k & R1 & R2). apply (only_end p hd _ _ _ E1) in R1 as ->. apply (BT _ _ _ _ _ _ B Na Ok1 Es) in R2. congruence.
  - unfold fmt_handle, t0, p. rewrite (apart_ok u quantize cmd name (ws ++ [c_lb] ++ arg ++ [c_rb] ++ rest) prev (TABLE u) (fun x r0 => gap_no_name ws (arg ++ [c_rb] ++ rest) x r0 B) (fun e I => I) A). rewrite Ea. cbn [try_table existsb]. fold p. fold t0. rewrite Em.
    unfold act. cbv zeta. rewrite El. assert (F : firstn n t0 = p ++ ws ++ [c_lb] ++ arg ++ [c_rb]) by (unfold t0; replace (p ++ ws ++ [c_lb] ++ arg ++ [c_rb] ++ rest) with ((p ++ ws ++ [c_lb] ++ arg ++ [c_rb]) ++ rest) by (rewrite <- !app_assoc; reflexivity); apply firstn_app_exact; reflexivity).
    rewrite F, Nb, Nx. destruct a; try discriminate; injection O as <-; reflexivity.
Qed.
Ltac rest_ok := split; [vm_compute; reflexivity|eexists; reflexivity].
Lemma a_style : forall cmd, In cmd ["pagestyle"; "urlstyle"; "thispagestyle"; "theoremstyle"; "bibliographystyle"; "documentstyle"; "setcitestyle"]%string -> argued cmd P_style ADrop "style" (fun _ => True).
Proof.
  intros cmd I. cbn [In] in I. repeat (destruct I as [<-|I]; [split; [exists (RSeq (rstr (lit "\")) (words ["pagestyle"; "urlstyle"; "thispagestyle"; "theoremstyle"; "bibliographystyle"; "documentstyle"; "setcitestyle"]%string)), ARG; split; [intros; apply assoc|split; [exact arg_any|split; [intros; repeat (exact Logic.I || split)|split; vm_compute; reflexivity]]]|rest_ok]|]). destruct I.
Qed.
Lemma a_enlarge : argued "enlargethispage" (P_page u) ADrop "page" (fun _ => True).
Proof.
  split; [|rest_ok]. exists (rstr (lit "\enlargethispage")), ARG. split; [|split; [exact arg_any|split; [intros; repeat (exact Logic.I || split)|split; vm_compute; reflexivity]]].
  intros rest j. unfold P_page. cbn [ralt]. rewrite rel_alt2. split; [|intros R; left; exact R]. intros [R|R]; [exact R|]. exfalso. revert R. apply dead_rel. vm_compute. reflexivity.
Qed.
Lemma a_pagenumbering : argued "pagenumbering" (P_numbering_style u) ADrop "numbering_style" (fun _ => True).
Proof.
  split; [|rest_ok]. exists (rstr (lit "\pagenumbering")), ARG. split; [|split; [exact arg_any|split; [intros; repeat (exact Logic.I || split)|split; vm_compute; reflexivity]]].
  intros rest j. unfold P_numbering_style. cbn [ralt]. rewrite rel_alt2. split; [|intros R; right; exact R]. intros [R|R]; [|exact R]. exfalso. revert R. apply dead_rel. vm_compute. reflexivity.
Qed.
Lemma star_arg : forall ok T, arg_tail T ok -> arg_tail (RSeq (ropt (rstr (lit "*"))) T) ok.
Proof.
  intros ok T BT t i ws a rest j B N O E. rewrite <- (BT t i ws a rest j B N O E), rel_rseq2. split.
  - intros (k & R1 & R). apply LegacyProofs5.rel_opt in R1 as [R1| ->]; [|exact R]. exfalso. apply rel_rstr in R1 as (_ & q & E2). rewrite E in E2. destruct ws as [|x ws]; cbn in E2; [discriminate|]. injection E2 as -> _. discriminate B.
  - intros R. exists i. split; [apply rel_altr; constructor|exact R].
Qed.
Lemma a_vspace : argued "vspace" P_vspace (AText [10%N]) "vspace" (fun _ => True).
Proof.
  split; [|rest_ok]. exists (rstr (lit "\vspace")), (RSeq (ropt (rstr (lit "*"))) ARG). split; [intros; reflexivity|split; [exact (star_arg _ _ arg_any)|split; [intros; repeat (exact Logic.I || split)|split; vm_compute; reflexivity]]].
Qed.
Lemma a_vspace_star : argued "vspace*" P_vspace (AText [10%N]) "vspace" (fun _ => True).
Proof.
  split; [|rest_ok]. exists (rstr (lit "\vspace*")), ARG. split; [|split; [exact arg_any|split; [intros; repeat (exact Logic.I || split)|split; vm_compute; reflexivity]]].
  intros rest j. unfold P_vspace. change (rseq [rstr (lit "\vspace"); ropt (rstr (lit "*")); ARG]) with (RSeq (rstr (lit "\vspace")) (RSeq (ropt (rstr (lit "*"))) ARG)). rewrite !rel_rseq2. split.
  - intros (k & R1 & R). pose proof R1 as R1'. apply rel_rstr in R1 as (-> & _). apply rel_rseq2 in R as (k & R2 & R3). apply LegacyProofs5.rel_opt in R2 as [R2| ->].
    + apply rel_rstr in R2 as (-> & _). exists (0 + length (lit "\vspace*")). split; [apply rel_rstr; split; [reflexivity|]; exists rest; reflexivity|exact R3].
    + exfalso. assert (R : rel (RSeq (rstr (lit "\vspace")) ARG) ((lit "\" ++ lit "vspace*") ++ rest) 0 j) by (apply rel_rseq2; eexists; split; [exact R1'|exact R3]). revert R. apply dead_rel. vm_compute. reflexivity.
  - intros (k & R1 & R). apply rel_rstr in R1 as (-> & _). exists 7. split; [apply rel_rstr; split; [reflexivity|]; exists (lit "*" ++ rest); reflexivity|]. apply rel_rseq2. exists 8. split; [apply rel_altl; apply rel_rstr; split; [reflexivity|]; exists rest; reflexivity|exact R].
Qed.
(** \hspace and \linespread *)
Definition SP1 : re := ralt [rstr (lit "quad"); rstr (lit "qquad"); rstr (lit "xspace"); rstr (lit "space"); rstr (lit ","); rstr (lit ";"); rstr (lit ":"); rstr (lit "!")].
Definition SP2 : re := RSeq (ropt (rstr (lit "*"))) ARG1.
Definition SP3 : re := RSeq (rstr (lit "hskip")) (RSeq sp LENGTH).
Lemma spacing_inv : forall t i j, rel P_spacing t i j <-> rel (RSeq (rstr (lit "\")) SP1) t i j \/ rel (RSeq (rstr (lit "\hspace")) SP2) t i j \/ rel (RSeq (rstr (lit "\")) SP3) t i j \/ rel (RSeq (rstr (lit "\linespread")) ARG) t i j.
Proof.
  assert (L : forall (s : str) (b : re) t i j, rel (RSeq (rstr (lit "\")) (RSeq (rstr s) b)) t i j <-> rel (RSeq (rstr (lit "\" ++ s)) b) t i j).
  { intros s b t i j. rewrite assoc, !rel_rseq2. split.
    - intros (k & R & R2). exists k. split; [|exact R2]. apply rel_rseq2 in R as (l & R0 & R1). apply rel_rstr in R0 as (-> & q & E0). apply rel_rstr in R1 as (-> & q1 & E1). apply rel_rstr. split; [rewrite app_length; lia|]. exists q1. rewrite E0, <- app_assoc. f_equal. rewrite <- E1, <- skipn_add, E0. symmetry. apply skipn_app_exact. reflexivity.
    - intros (k & R & R2). exists k. split; [|exact R2]. apply rel_rstr in R as (-> & q & E). rewrite <- app_assoc in E. apply rel_rseq2. exists (i + 1). split; [apply rel_rstr; split; [reflexivity|]; eexists; exact E|]. apply rel_rstr. split; [rewrite app_length; cbn; lia|]. exists q. rewrite <- skipn_add, E. reflexivity. }
  intros t i j. unfold P_spacing. rewrite <- (L (lit "hspace") SP2), <- (L (lit "linespread") ARG). unfold SP1, SP2, SP3. cbn [rseq ralt]. rewrite !rel_rseq2. split.
  - intros (k & R0 & R). do 8 (apply rel_alt2 in R as [R|R]; [left; exists k; split; [exact R0|]; repeat (first [apply rel_altl; exact R|exact R|apply rel_altr])|]).
    apply rel_alt2 in R as [R|R]; [right; left; exists k; auto|]. apply rel_alt2 in R as [R|R]; [right; right; left; exists k; auto|]. right; right; right. exists k; auto.
  - intros [(k & R0 & R)|[(k & R0 & R)|[(k & R0 & R)|(k & R0 & R)]]]; exists k; (split; [exact R0|]).
    + do 7 (apply rel_alt2 in R as [R|R]; [repeat (first [apply rel_altl; exact R|apply rel_altr])|]). do 7 apply rel_altr. apply rel_altl. exact R.
    + do 8 apply rel_altr. apply rel_altl. exact R.
    + do 9 apply rel_altr. apply rel_altl. exact R.
    + do 10 apply rel_altr. exact R.
Qed.
Lemma a_hspace : argued "hspace" P_spacing ASpacing "spacing" (fun a => a <> []).
Proof.
  split; [|rest_ok]. exists (rstr (lit "\hspace")), SP2. split; [|split; [exact (star_arg _ _ arg_some)|split; [intros; repeat (exact Logic.I || split)|split; vm_compute; reflexivity]]].
  intros rest j. rewrite spacing_inv. split; [|intros R; right; left; exact R]. intros [R|[R|[R|R]]]; [|exact R| |]; exfalso; revert R; apply dead_rel; vm_compute; reflexivity.
Qed.
Lemma a_linespread : argued "linespread" P_spacing ASpacing "spacing" (fun _ => True).
Proof.
  split; [|rest_ok]. exists (rstr (lit "\linespread")), ARG. split; [|split; [exact arg_any|split; [intros; repeat (exact Logic.I || split)|split; vm_compute; reflexivity]]].
  intros rest j. rewrite spacing_inv. split; [|intros R; right; right; right; exact R]. intros [R|[R|[R|R]]]; [| | |exact R]; exfalso; revert R; apply dead_rel; vm_compute; reflexivity.
Qed.
Ltac side := try (intros X; vm_compute; reflexivity).
Theorem style_ok : forall cmd ws arg rest prev, In cmd style_commands -> blank ws -> ~ In c_rb arg ->
  fmt_handle u quantize [] prev ((lit "\" ++ lit cmd) ++ ws ++ [c_lb] ++ arg ++ [c_rb] ++ rest) = Ok (None, length ((lit "\" ++ lit cmd) ++ ws ++ [c_lb] ++ arg ++ [c_rb]), prev).
Proof.
  intros cmd ws arg rest prev I B N. unfold style_commands in I. cbn [In] in I.
  repeat (destruct I as [<-|I]; [eapply argued_ok; [first [exact a_enlarge|exact a_pagenumbering|apply a_style; cbn; tauto]|reflexivity|side|side|exact B|exact N|exact Logic.I]|]). destruct I.
Qed.
Theorem vspace_ok : forall cmd ws arg rest prev, In cmd ["vspace"; "vspace*"]%string -> blank ws -> ~ In c_rb arg ->
  fmt_handle u quantize [] prev ((lit "\" ++ lit cmd) ++ ws ++ [c_lb] ++ arg ++ [c_rb] ++ rest) = Ok (Some (text_token [10%N]), length ((lit "\" ++ lit cmd) ++ ws ++ [c_lb] ++ arg ++ [c_rb]), prev).
Proof.
  intros cmd ws arg rest prev [<-|[<-|[]]] B N; (eapply argued_ok; [first [exact a_vspace|exact a_vspace_star]|reflexivity|side|side|exact B|exact N|exact Logic.I]).
Qed.
Theorem hspace_ok : forall ws arg rest prev, blank ws -> ~ In c_rb arg -> arg <> [] ->
  fmt_handle u quantize [] prev (lit "\hspace" ++ ws ++ [c_lb] ++ arg ++ [c_rb] ++ rest) = Ok (Some (text_token [c_sp]), length (lit "\hspace" ++ ws ++ [c_lb] ++ arg ++ [c_rb]), prev).
Proof. intros ws arg rest prev B N Ne. apply (argued_ok "hspace" _ _ _ _ ws arg rest prev _ a_hspace); [reflexivity|side|side|exact B|exact N|exact Ne]. Qed.
Theorem linespread_ok : forall ws arg rest prev, blank ws -> ~ In c_rb arg ->
  fmt_handle u quantize [] prev (lit "\linespread" ++ ws ++ [c_lb] ++ arg ++ [c_rb] ++ rest) = Ok (Some (text_token [c_sp]), length (lit "\linespread" ++ ws ++ [c_lb] ++ arg ++ [c_rb]), prev).
Proof. intros ws arg rest prev B N. apply (argued_ok "linespread" _ _ _ _ ws arg rest prev _ a_linespread); [reflexivity|side|side|exact B|exact N|exact Logic.I]. Qed.
End P.
