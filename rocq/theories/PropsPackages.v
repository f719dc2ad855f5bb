(** Package handlers: C30, C41, C47. *)
From Coq Require Import List NArith PeanoNat Lia Bool String.
From Verif Require Import PyStr Regex Json TexUtilsModel DelimSpec EtoolModel EtoolSpec EtoolProofs EtoolProofs2 SubstModel KeyvalModel KeyvalSpec KeyvalProofs KeyvalProofs2 PackageCases.
Import ListNotations. Notation length := List.length. Notation concat := List.concat. Open Scope list_scope.

(** * C30 *)
(** After any sequence of texts given to the handler, a boolean has the value
    of the last command that gives it one, and no value if nothing defines it. *)
Theorem C30_booleans : forall contents h n, Forall2 event contents h ->
  (forall v, blookup n (etool_run contents []) = Some v <-> has_value h n v) /\ (blookup n (etool_run contents []) = None <-> ~ defines h n).
Proof. exact booleans. Qed.
Print Assumptions C30_booleans.
(** \ifbool and \notbool leave the booleans alone and report both branches; for \notbool they are exchanged. *)
Theorem C30_conditionals : forall d text name rest a b n, groups_at c_lb c_rb rest [a; b] n ->
  (command_arg "\ifbool" text name rest -> etool_handle d text = (d, (Some (conditional name a b false), length text - length rest + n))) /\
  (command_arg "\notbool" text name rest -> etool_handle d text = (d, (Some (conditional name b a true), length text - length rest + n))).
Proof. exact conditionals. Qed.
Print Assumptions C30_conditionals.
Example C30_conditional_case : etool_handle [] (lit "\notbool {draft}{a {x}} {b} c") = ([], (Some (conditional (lit "draft") (lit "b") (lit "a {x}") true), 27)).
Proof. exact conditionals_case. Qed.
Example C30_case : Forall2 event ex_texts ex_hist /\ etool_run ex_texts [] = [(lit "a", false)] /\ etool_run (firstn 3 ex_texts) [] = [(lit "a", true)].
Proof. exact (conj ex_events (conj eq_refl eq_refl)). Qed.

(** * C41 *)
(** \setkeys reports the settings of its comma-separated pieces in order. *)
Theorem C41_settings : forall isalpha d r family pieces outs n, groups_at c_lb c_rb r [family; join [c_comma] pieces] n -> Forall2 setting pieces outs ->
  exists cbs, keyval_handle isalpha d (lit "\setkeys" ++ r) = (d, (Some (KSetting family (given outs) cbs), 8 + n)) /\
    forall k x, slookup k cbs = Some x <->
      exists default code v, klookup family k d = Some (default, code) /\ code <> [] /\ last_value k (given outs) v /\ x = substitute_args isalpha code [Some v] false.
Proof. exact setkeys. Qed.
Print Assumptions C41_settings.
Theorem C41_pairs : forall pieces outs, Forall2 setting pieces outs -> key_values (join [c_comma] pieces) = given outs.
Proof. exact key_values_spec. Qed.
Print Assumptions C41_pairs.
Example C41_case : groups_at c_lb c_rb (lit " {pub} {article=no,, note= a b , other ,note=#1} tail") [lit "pub"; join [c_comma] ex_good] 48 /\ Forall2 setting ex_good ex_outs /\
  keyval_handle (fun _ => false) ex_defs (lit "\setkeys {pub} {article=no,, note= a b , other ,note=#1} tail") =
    (ex_defs, (Some (KSetting (lit "pub") [(lit "article", lit "no"); (lit "note", lit "a b"); (lit "other", lit "true"); (lit "note", lit "#1")] [(lit "note", lit "\set{#1}")]), 56)).
Proof. exact (conj ex_groups (conj ex_settings eq_refl)). Qed.
(** Blanks before the equals sign split a setting in two; so do commas inside
    a braced value. *)
Theorem C41_spaces_refuted : key_values (lit "k = v") = [(lit "k", lit "true"); (lit "v", lit "true")] /\
  key_values (lit "k={a,b}") = [(lit "k", lit "{a"); (lit "b}", lit "true")].
Proof. exact (conj eq_refl eq_refl). Qed.
Print Assumptions C41_spaces_refuted.

(** * C47 *)
(** \define@key records the code of a key, replacing any earlier one, and
    changes no other key. *)
Theorem C47_define_key : forall isalpha d r family key n default m code p,
  groups_at c_lb c_rb r [family; key] n ->
  match default with
  | Some b => group_at c_lk c_rk (skipn n r) b m
  | None => m = 0 /\ forall b k, ~ group_at c_lk c_rk (skipn n r) b k
  end ->
  group_at c_lb c_rb (skipn (n + m) r) code p ->
  exists d', keyval_handle isalpha d (lit "\define@key" ++ r) = (d', (Some (KDefinition family key default code), 11 + n + m + p)) /\
    klookup family key d' = Some (default, code) /\ forall f k, (f, k) <> (family, key) -> klookup f k d' = klookup f k d.
Proof. exact define_key. Qed.
Print Assumptions C47_define_key.
Example C47_case : (groups_at c_lb c_rb (lit "{pub}{note}[yes]{\set{#1}} ") [lit "pub"; lit "note"] 11 /\
  group_at c_lk c_rk (skipn 11 (lit "{pub}{note}[yes]{\set{#1}} ")) (lit "yes") 5 /\ group_at c_lb c_rb (skipn 16 (lit "{pub}{note}[yes]{\set{#1}} ")) (lit "\set{#1}") 10) /\
  ex_defs = [(lit "pub", lit "note", (Some (lit "yes"), lit "\set{#1}"))].
Proof. exact (conj ex_def_groups eq_refl). Qed.
(** The recorded default is never used: a key set without a value runs its code on "true". *)
Theorem C47_default_refuted : snd (keyval_handle (fun _ => false) ex_defs (lit "\setkeys{pub}{note}")) =
  (Some (KSetting (lit "pub") [(lit "note", lit "true")] [(lit "note", lit "\set{true}")]), 19).
Proof. exact eq_refl. Qed.
Print Assumptions C47_default_refuted.
