From Coq Require Import List NArith Bool String Lia PeanoNat.
From Verif Require Import PyStr LoggerModel LoggerSpec.
Import ListNotations. Notation length := List.length. Open Scope list_scope.

Lemma percent_cons : forall c m a, c <> 37%N -> percent (c :: m) a = option_map (cons c) (percent m a).
Proof. intros c m a H. cbn [percent]. destruct c as [|p]; [reflexivity|]. repeat (destruct p as [p|p|]; try reflexivity). contradiction H; reflexivity. Qed.
Lemma percent_bad : forall d m a, d <> 115%N -> d <> 37%N -> percent (37%N :: d :: m) a = None.
Proof. intros d m a H1 H2. cbn [percent]. destruct d as [|p]; [reflexivity|]. repeat (destruct p as [p|p|]; try reflexivity); first [contradiction H1; reflexivity|contradiction H2; reflexivity]. Qed.
Lemma percent_filled : forall n m a o, length m < n -> (percent m a = Some o <-> filled m a o).
Proof.
  induction n as [|n IH]; intros m a o Hn; [lia|]. destruct m as [|c m].
  - destruct a; cbn; split; intros H; try discriminate H; [injection H as <-; constructor|inversion H; reflexivity|inversion H].
  - cbn [length] in Hn. destruct (N.eq_dec c 37) as [->|Nc].
    + destruct m as [|d m]; [split; intros H; [destruct a; discriminate H|inversion H; congruence]|]. cbn [length] in Hn.
      destruct (N.eq_dec d 115) as [->|N1]; [|destruct (N.eq_dec d 37) as [->|N2]].
      * destruct a as [|x a]; [split; intros H; [discriminate H|inversion H; congruence]|]. change (percent (37%N :: 115%N :: m) (x :: a)) with (option_map (app x) (percent m a)). split.
        -- intros H. destruct (percent m a) as [o'|] eqn:E; [|discriminate H]. injection H as <-. apply (fl_arg m). apply IH; [lia|exact E].
        -- intros H. inversion H as [|? ? ? o' F| |]; subst; [|congruence]. apply IH in F; [|lia]. rewrite F. reflexivity.
      * change (percent (37%N :: 37%N :: m) a) with (option_map (cons 37%N) (percent m a)). split.
        -- intros H. destruct (percent m a) as [o'|] eqn:E; [|discriminate H]. injection H as <-. apply (fl_percent m). apply IH; [lia|exact E].
        -- intros H. inversion H as [| |? ? o' F|]; subst; [|congruence]. apply IH in F; [|lia]. rewrite F. reflexivity.
      * rewrite percent_bad by assumption. split; [discriminate|intros H; inversion H; subst; congruence].
    + rewrite percent_cons by assumption. split.
      * intros H. destruct (percent m a) as [o'|] eqn:E; [|discriminate H]. injection H as <-. apply fl_char; [exact Nc|]. apply IH; [lia|exact E].
      * intros H. inversion H as [| | |? ? ? o' _ F]; subst; try congruence. apply IH in F; [|lia]. rewrite F. reflexivity.
Qed.
Lemma message_spec : forall r m, get_message r = Some m <-> message r m.
Proof.
  intros r m. unfold get_message, message. destruct (args r) as [|x a].
  - split; [intros H; injection H as <-; auto|intros [(_ & ->)|(H & _)]; [reflexivity|contradiction H; reflexivity]].
  - rewrite (percent_filled (S (length (msg r)))) by lia. split; [intros H; right; split; [discriminate|exact H]|intros [(H & _)|(_ & H)]; [discriminate H|exact H]].
Qed.
Lemma message_none : forall r, get_message r = None -> forall m, ~ message r m.
Proof. intros r H m M. apply message_spec in M. congruence. Qed.

(** texts without percent signs before and behind the template *)
Lemma percent_before : forall p m a, ~ In 37%N p -> percent (p ++ m) a = option_map (app p) (percent m a).
Proof.
  intros p m a. induction p as [|c p IH]; intros H; [cbn [app]; destruct (percent m a); reflexivity|]. cbn [app]. rewrite percent_cons by (intros ->; apply H; left; reflexivity).
  rewrite IH by (intros I; apply H; right; exact I). destruct (percent m a); reflexivity.
Qed.
Lemma percent_plain : forall s a, ~ In 37%N s -> percent s a = match a with [] => Some s | _ => None end.
Proof.
  intros s a H. rewrite <- (app_nil_r s) at 1. rewrite percent_before by exact H. destruct a; [cbn; rewrite app_nil_r; reflexivity|reflexivity].
Qed.
Lemma percent_behind : forall n d s m a, length m < n -> d <> 115%N -> ~ In 37%N (d :: s) -> percent (m ++ d :: s) a = option_map (fun o => o ++ d :: s) (percent m a).
Proof.
  induction n as [|n IH]; intros d s m a Hn Hd Hs; [lia|]. destruct m as [|c m].
  - cbn [app]. rewrite percent_plain by exact Hs. destruct a; reflexivity.
  - cbn [length] in Hn. cbn [app]. assert (R : forall m a, length m < n -> percent (m ++ d :: s) a = option_map (fun o => o ++ d :: s) (percent m a)) by (intros; apply IH; assumption).
    destruct (N.eq_dec c 37) as [->|Nc].
    + destruct m as [|e m].
      * cbn [app]. rewrite percent_bad; [|exact Hd|intros ->; apply Hs; left; reflexivity]. destruct a; reflexivity.
      * cbn [length] in Hn. cbn [app]. destruct (N.eq_dec e 115) as [->|N1]; [|destruct (N.eq_dec e 37) as [->|N2]].
        -- destruct a as [|x a]; [reflexivity|]. change (percent (37%N :: 115%N :: m ++ d :: s) (x :: a)) with (option_map (app x) (percent (m ++ d :: s) a)).
           change (percent (37%N :: 115%N :: m) (x :: a)) with (option_map (app x) (percent m a)). rewrite R by lia. destruct (percent m a); cbn [option_map]; [rewrite app_assoc|]; reflexivity.
        -- change (percent (37%N :: 37%N :: m ++ d :: s) a) with (option_map (cons 37%N) (percent (m ++ d :: s) a)).
           change (percent (37%N :: 37%N :: m) a) with (option_map (cons 37%N) (percent m a)). rewrite R by lia. destruct (percent m a); reflexivity.
        -- rewrite !percent_bad by assumption. reflexivity.
    + rewrite !percent_cons by assumption. rewrite R by lia. destruct (percent m a); reflexivity.
Qed.
Lemma color_no_percent : forall n, ~ In 37%N (color n).
Proof.
  intros n. unfold color. destruct (find _ COLORS) as [p|] eqn:E; [|intros []]. apply find_some in E as (I & _).
  vm_compute in I. repeat (destruct I as [<-|I]; [vm_compute; intros H; repeat (destruct H as [H|H]; [discriminate H|]); exact H|]). destruct I.
Qed.
Definition dress (r : record) : record :=
  {| msg := color (levelname r) ++ msg r ++ reset; args := args r; levelname := color (levelname r) ++ levelname r ++ reset; levelno := levelno r; time := time r; exc := exc r |}.
Lemma message_dressed : forall r, get_message (dress r) = option_map (fun m => color (levelname r) ++ m ++ reset) (get_message r).
Proof.
  intros r. unfold get_message. cbn [args dress msg]. destruct (args r) as [|x a]; [reflexivity|]. rewrite (percent_before (color (levelname r)) (msg r ++ reset)) by apply color_no_percent.
  assert (B := percent_behind (S (length (msg r))) 27%N (lit "[0m") (msg r) (x :: a) (le_n _)).
  assert (N : ~ In 37%N (27%N :: lit "[0m")) by (vm_compute; intros H; repeat (destruct H as [H|H]; [discriminate H|]); exact H).
  specialize (B ltac:(discriminate) N). change (27%N :: lit "[0m") with reset in B. transitivity (option_map (app (color (levelname r))) (option_map (fun o => o ++ reset) (percent (msg r) (x :: a)))); [apply f_equal; exact B|]. destruct (percent (msg r) (x :: a)); reflexivity.
Qed.
Lemma last_newline : forall s, N.eqb (last s 0%N) 10 = true <-> exists s', s = s' ++ [10%N].
Proof.
  intros s. rewrite N.eqb_eq. split.
  - intros H. destruct s as [|c s]; [discriminate H|]. exists (removelast (c :: s)). rewrite <- H. apply app_removelast_last. discriminate.
  - intros (s' & ->). apply last_last.
Qed.
Lemma traced_spec : forall s e l, traced s e l <-> l = match e with None => s | Some t => (if N.eqb (last s 0%N) 10%N then s else s ++ [10%N]) ++ t end.
Proof.
  intros s e l. unfold traced. destruct e as [t|]; [|reflexivity]. destruct (N.eqb (last s 0%N) 10) eqn:E.
  - apply last_newline in E. split; [intros [(s' & _ & ->)|(H & _)]; [reflexivity|destruct E as (s' & E); contradiction (H s' E)]|intros ->; left; destruct E as (s' & E); exists s'; auto].
  - assert (N : forall s', s <> s' ++ [10%N]) by (intros s' H; assert (N.eqb (last s 0%N) 10 = true) by (apply last_newline; eauto); congruence).
    rewrite <- app_assoc. cbn [app]. split; [intros [(s' & H & _)|(_ & ->)]; [contradiction (N s' H)|reflexivity]|intros ->; right; auto].
Qed.
Lemma plain_spec : forall name r l, plain_format name r = Some l <-> plain_line name r l.
Proof.
  intros name r l. unfold plain_format, plain_line. destruct (get_message r) as [m|] eqn:E.
  - apply message_spec in E. split.
    + intros H. injection H as <-. exists m. split; [exact E|]. apply traced_spec. reflexivity.
    + intros (m' & M & T). apply message_spec in E. apply message_spec in M. assert (m' = m) by congruence. subst m'. apply traced_spec in T. rewrite T. reflexivity.
  - split; [discriminate|intros (m & M & _); contradiction (message_none r E m M)].
Qed.
Lemma colored_spec : forall name r l, plain_format name (dress r) = Some l <-> colored_line name r l.
Proof.
  intros name r l. rewrite plain_spec. unfold plain_line, colored_line. cbn [time levelname exc dress]. split; intros (m & M & T).
  - apply message_spec in M. rewrite message_dressed in M. destruct (get_message r) as [m'|] eqn:E; [|discriminate M]. injection M as <-. exists m'. split; [apply message_spec, E|exact T].
  - exists (painted r m). split; [|exact T]. apply message_spec. rewrite message_dressed. apply message_spec in M. rewrite M. reflexivity.
Qed.
Lemma plain_none : forall name r, plain_format name r = None <-> get_message r = None.
Proof. intros name r. unfold plain_format. destruct (get_message r); split; congruence. Qed.

Definition console_line (tty : bool) (name : str) : record -> str -> Prop := if tty then colored_line name else plain_line name.
Lemma colored_eq : forall tty name r, colored_format tty name r =
  match plain_format name (if tty then dress r else r) with Some s => (Some s, r) | None => (None, if tty then dress r else r) end.
Proof. intros [] name [m a ln lo t e]; reflexivity. Qed.
Lemma emit_console : forall tty name w r, emit tty name Console (w, r) =
  match plain_format name (if tty then dress r else r) with
  | Some s => ({| level := level w; handlers := handlers w; console := console w ++ [s]; files := files w |}, r)
  | None => (w, if tty then dress r else r) end.
Proof. intros tty name w r. unfold emit. rewrite colored_eq. destruct (plain_format name (if tty then dress r else r)); reflexivity. Qed.
(** one record, on both handlers *)
Lemma log_effect : forall tty name r w lv f, handlers w = Console :: match f with Some p => [File p] | None => [] end -> level w = lv ->
  let w' := log tty name r w in
  handlers w' = handlers w /\ level w' = level w /\
  exists cs fs, console w' = console w ++ cs /\
    (forall q, f <> Some q -> files w' q = files w q) /\ (forall p l, f = Some p -> files w p = Some l -> files w' p = Some (l ++ fs)) /\
    (forall rs cs', lines (console_line tty name) lv rs cs' -> lines (console_line tty name) lv (r :: rs) (cs ++ cs')) /\
    (forall rs fs', lines (plain_line name) lv rs fs' -> lines (plain_line name) lv (r :: rs) (fs ++ fs')).
Proof.
  intros tty name r w lv f Hh Hl w'. unfold w', log. rewrite Hl. destruct (N.leb lv (levelno r)) eqn:E.
  2:{ apply N.leb_gt in E. split; [reflexivity|]. split; [auto|]. exists [], []. rewrite app_nil_r. split; [reflexivity|]. split; [auto|]. split; [intros p l _ H; rewrite app_nil_r; exact H|].
      split; intros; apply ln_low; assumption. }
  apply N.leb_le in E. rewrite Hh. cbn [fold_left]. rewrite emit_console.
  destruct (get_message r) as [m|] eqn:Em.
  - assert (Hc : exists c, plain_format name (if tty then dress r else r) = Some c /\ console_line tty name r c).
    { destruct (plain_format name (if tty then dress r else r)) as [c|] eqn:Ec.
      - exists c. split; [reflexivity|]. destruct tty; [apply colored_spec, Ec|apply plain_spec, Ec].
      - exfalso. apply plain_none in Ec. destruct tty; [rewrite message_dressed, Em in Ec; discriminate Ec|congruence]. }
    destruct Hc as (c & Hc & Lc). rewrite Hc.
    destruct (plain_format name r) as [s|] eqn:Es; [|apply plain_none in Es; congruence]. assert (Ls := proj1 (plain_spec _ _ _) Es).
    destruct f as [p|]; cbn [fold_left emit fst]; [rewrite Es|]; cbn [handlers level console files].
    + split; [first [exact Hh|symmetry; exact Hh|reflexivity]|]. split; [auto|]. exists [c], [s]. split; [reflexivity|]. split; [|split; [|split; intros; apply (ln_line _ _ _ _ _ _ E); assumption]].
      * intros q N. unfold with_file. destruct (str_eqb q p) eqn:Eq; [apply str_eqb_spec in Eq; congruence|reflexivity].
      * intros p' l Ep Hf. injection Ep as <-. unfold with_file. rewrite Hf. replace (str_eqb p p) with true by (symmetry; apply str_eqb_spec; reflexivity). reflexivity.
    + split; [first [exact Hh|symmetry; exact Hh|reflexivity]|]. split; [auto|]. exists [c], [s]. split; [reflexivity|]. split; [auto|]. split; [discriminate|split; intros; apply (ln_line _ _ _ _ _ _ E); assumption].
  - assert (Hc : plain_format name (if tty then dress r else r) = None) by (apply plain_none; destruct tty; [rewrite message_dressed, Em; reflexivity|exact Em]).
    rewrite Hc. assert (B := message_none r Em).
    assert (X : fst (fold_left (fun wr h => emit tty name h wr) match f with Some p => [File p] | None => [] end (w, if tty then dress r else r)) = w).
    { destruct f as [p|]; [|reflexivity]. cbn [fold_left emit]. rewrite Hc. reflexivity. }
    rewrite X. split; [first [exact Hh|symmetry; exact Hh|reflexivity]|]. split; [auto|]. exists [], []. rewrite app_nil_r. split; [reflexivity|]. split; [auto|]. split; [intros p l _ H; rewrite app_nil_r; exact H|].
    split; intros; apply ln_bad; assumption.
Qed.
Lemma logs_effect : forall tty name lv f logs w, handlers w = Console :: match f with Some p => [File p] | None => [] end -> level w = lv ->
  let w' := fold_left (step tty name) (map Log logs) w in
  handlers w' = handlers w /\
  exists cs fs, console w' = console w ++ cs /\ (forall q, f <> Some q -> files w' q = files w q) /\ (forall p l, f = Some p -> files w p = Some l -> files w' p = Some (l ++ fs)) /\
    lines (console_line tty name) lv logs cs /\ lines (plain_line name) lv logs fs.
Proof.
  intros tty name lv f logs. induction logs as [|r logs IH]; intros w Hh Hl; cbn [map fold_left step].
  - split; [reflexivity|]. exists [], []. rewrite app_nil_r. split; [reflexivity|]. split; [auto|]. split; [intros p l _ H; rewrite app_nil_r; exact H|]. split; constructor.
  - destruct (log_effect tty name r w lv f Hh Hl) as (H1 & H2 & cs & fs & H3 & H4 & H5 & H6 & H7).
    destruct (IH (log tty name r w) (eq_trans H1 Hh) (eq_trans H2 Hl)) as (K1 & cs' & fs' & K3 & K4 & K5 & K6 & K7).
    split; [congruence|]. exists (cs ++ cs'), (fs ++ fs'). split; [rewrite K3, H3, app_assoc; reflexivity|]. split; [intros q Q; rewrite K4, H4 by exact Q; reflexivity|].
    split; [intros p l Ep Hf; rewrite (K5 p (l ++ fs) Ep (H5 p l Ep Hf)), app_assoc; reflexivity|]. split; [apply H6, K6|apply H7, K7].
Qed.
Lemma setup_handlers : forall lv f w, handlers (setup lv f w) = Console :: match f with Some p => [File p] | None => [] end /\ level (setup lv f w) = lv /\ console (setup lv f w) = console w.
Proof. intros lv [p|] w; auto. Qed.
Theorem file_lines : forall tty name h lv p logs, exists ls, files (run tty name (h ++ Setup lv (Some p) :: map Log logs)) p = Some ls /\ lines (plain_line name) lv logs ls.
Proof.
  intros. unfold run. rewrite fold_left_app. cbn [fold_left step]. destruct (setup_handlers lv (Some p) (fold_left (step tty name) h start)) as (H1 & H2 & H3).
  destruct (logs_effect tty name lv (Some p) logs _ H1 H2) as (_ & cs & fs & _ & _ & K & _ & L). exists fs. split; [|exact L].
  apply (K p [] eq_refl). cbn. unfold with_file. replace (str_eqb p p) with true by (symmetry; apply str_eqb_spec; reflexivity). reflexivity.
Qed.
Theorem console_lines : forall tty name h lv f logs, exists ls,
  console (run tty name (h ++ Setup lv f :: map Log logs)) = console (run tty name h) ++ ls /\ lines (if tty then colored_line name else plain_line name) lv logs ls.
Proof.
  intros. unfold run. rewrite fold_left_app. cbn [fold_left step]. destruct (setup_handlers lv f (fold_left (step tty name) h start)) as (H1 & H2 & H3).
  destruct (logs_effect tty name lv f logs _ H1 H2) as (_ & cs & fs & K & _ & _ & L & _). exists cs. split; [rewrite K, H3; reflexivity|exact L].
Qed.
Lemma kept_from : forall tty name p rest w f, handlers w = Console :: match f with Some p => [File p] | None => [] end -> f <> Some p ->
  (forall lv, ~ In (Setup lv (Some p)) rest) -> files (fold_left (step tty name) rest w) p = files w p.
Proof.
  intros tty name p rest. induction rest as [|e rest IH]; intros w f Hh Hf Hr; [reflexivity|]. cbn [fold_left]. destruct e as [lv g|r]; cbn [step].
  - assert (G : g <> Some p) by (intros ->; apply (Hr lv); left; reflexivity). destruct (setup_handlers lv g w) as (H1 & _).
    rewrite (IH _ g H1 G) by (intros l I; apply (Hr l); right; exact I). destruct g as [q|]; [|reflexivity]. cbn. unfold with_file.
    destruct (str_eqb p q) eqn:E; [apply str_eqb_spec in E; congruence|reflexivity].
  - destruct (log_effect tty name r w (level w) f Hh eq_refl) as (H1 & _ & cs & fs & _ & H4 & _).
    rewrite (IH _ f (eq_trans H1 Hh) Hf) by (intros l I; apply (Hr l); right; exact I). apply H4, Hf.
Qed.
Theorem file_kept : forall tty name h p lv f rest, f <> Some p -> (forall lv, ~ In (Setup lv (Some p)) rest) ->
  files (run tty name (h ++ Setup lv f :: rest)) p = files (run tty name h) p.
Proof.
  intros tty name h p lv f rest Hf Hr. unfold run. rewrite fold_left_app. cbn [fold_left step]. destruct (setup_handlers lv f (fold_left (step tty name) h start)) as (H1 & _).
  rewrite (kept_from tty name p rest _ f H1 Hf Hr). destruct f as [q|]; [|reflexivity]. cbn. unfold with_file.
  destruct (str_eqb p q) eqn:E; [apply str_eqb_spec in E; congruence|reflexivity].
Qed.
Lemma redirected : forall name r m, message r m -> exists l, console (run true name [Setup 0 None; Log r]) = [l] /\ In 27%N l.
Proof.
  intros name r m M. destruct (console_lines true name [] 0 None [r]) as (ls & E & L). cbn [app map] in E. exists (hd [] ls).
  assert (B : forall rs ls', lines (colored_line name) 0 rs ls' -> rs = [] -> ls' = []) by (intros rs ls' H; destruct H; congruence).
  inversion L as [|? ? ? Lo _|? ? ? Bad _|? ? l ls' Le Ll Lr]; subst; [lia|contradiction (Bad m M)|]. rewrite (B _ _ Lr eq_refl) in E. cbn [hd]. split; [exact E|].
  destruct Ll as (m' & _ & T). apply traced_spec in T.
  assert (I : forall s, In 27%N s -> In 27%N (match exc r with None => s | Some t => (if N.eqb (last s 0%N) 10%N then s else s ++ [10%N]) ++ t end)).
  { intros s H. destruct (exc r); [|exact H]. apply in_or_app. left. destruct (N.eqb (last s 0%N) 10); [exact H|apply in_or_app; left; exact H]. }
  rewrite T. apply I. apply in_or_app. right. apply in_or_app. right. apply in_or_app. right. apply in_or_app. right. apply in_or_app. left.
  unfold painted. apply in_or_app. right. apply in_or_app. right. left. reflexivity.
Qed.
