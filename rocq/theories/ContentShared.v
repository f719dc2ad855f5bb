(** Several ContentCommandHandler objects at once (handlers/content_command.py:87-91):
    [citealias] is a dictionary of the class until [clear] gives the object its own. *)
From Coq Require Import List NArith ZArith PeanoNat Lia Bool String.
From Verif Require Import PyStr Regex Json TexUtilsModel DelimSpec DelimFinal ContentModel ContentSpec ContentSpec2 ContentProofs7.
Import ListNotations. Notation length := List.length. Notation concat := List.concat. Open Scope list_scope.

(** content_command.py:88 the class attribute, and what each object has itself *)
Record handlers := { class_aliases : aliases; own : list (option aliases) }.
Definition fresh : handlers := {| class_aliases := []; own := [] |}.
(** attribute lookup of self.citealias *)
Definition seen_by (w : handlers) (i : nat) : aliases := match nth i (own w) None with Some d => d | None => class_aliases w end.
Fixpoint update {A} (i : nat) (x : A) (l : list A) : list A := match l, i with [], _ => [] | _ :: r, O => x :: r | y :: r, S j => y :: update j x r end.
(** content_command.py:211: item assignment changes the dictionary that was looked up *)
Definition put (w : handlers) (i : nat) (d : aliases) : handlers :=
  match nth i (own w) None with
  | Some _ => {| class_aliases := class_aliases w; own := update i (Some d) (own w) |}
  | None => {| class_aliases := d; own := own w |}
  end.
Inductive call := Create | Clear (i : nat) | Handle (i : nat) (text : str).
Definition answer (r : res (aliases * (val * nat))) : res (val * nat) := match r with Ok (_, a) => Ok a | Raise e => Raise e end.
(** content_command.py:90-91 [clear] and 93-137 [handle]; an exception comes before any assignment *)
Definition do_call word expand (w : handlers) (c : call) : handlers * option (res (val * nat)) :=
  match c with
  | Create => ({| class_aliases := class_aliases w; own := own w ++ [None] |}, None)
  | Clear i => ({| class_aliases := class_aliases w; own := update i (Some []) (own w) |}, None)
  | Handle i text =>
      let r := content_handle word expand (seen_by w i) text in
      (match r with Ok (d, _) => put w i d | Raise _ => w end, Some (answer r))
  end.
Fixpoint do_calls word expand (w : handlers) (cs : list call) : handlers * list (option (res (val * nat))) :=
  match cs with
  | [] => (w, [])
  | c :: r => let '(w1, o) := do_call word expand w c in let '(w2, os) := do_calls word expand w1 r in (w2, o :: os)
  end.
Definition on (i : nat) (c : call) : bool := match c with Create => false | Clear j => i =? j | Handle j _ => i =? j end.

Lemma update_same : forall A i (x : A) l d, i < length l -> nth i (update i x l) d = x.
Proof. intros A i x l d. revert i. induction l as [|y l IH]; intros [|i] L; cbn in *; try lia; [reflexivity|]. apply IH. lia. Qed.
Lemma update_other : forall A i j (x : A) l d, i <> j -> nth i (update j x l) d = nth i l d.
Proof. intros A i j x l d. revert i j. induction l as [|y l IH]; intros [|i] [|j] N; cbn; try reflexivity; try lia. apply IH. lia. Qed.
Lemma update_length : forall A k (x : A) l, length (update k x l) = length l.
Proof. intros A k x l. revert k. induction l; intros [|k]; cbn; auto. Qed.
Lemma some_lt : forall i (l : list (option aliases)) b, nth i l None = Some b -> i < length l.
Proof. intros i l b H. destruct (Nat.ltb i (length l)) eqn:E; [apply Nat.ltb_lt; exact E|]. apply Nat.ltb_ge in E. rewrite nth_overflow in H by exact E. discriminate. Qed.
Lemma put_own : forall w i b d, nth i (own w) None = Some b -> nth i (own (put w i d)) None = Some d.
Proof. intros w i b d H. unfold put. rewrite H. cbn [own]. apply update_same. eapply some_lt. exact H. Qed.
Lemma put_other : forall w i j b d, nth i (own w) None = Some b -> i <> j -> nth i (own (put w j d)) None = Some b.
Proof. intros w i j b d H N. unfold put. destruct (nth j (own w) None); cbn [own]; [rewrite update_other by exact N|]; exact H. Qed.
Section Runs.
Variables (word : ch -> bool) (expand : str -> str).
Lemma isolated_gen : forall i cs w w' b, nth i (own w) None = Some b -> nth i (own w') None = Some b ->
  map snd (filter (fun p => on i (fst p)) (combine cs (snd (do_calls word expand w cs)))) = snd (do_calls word expand w' (filter (on i) cs)).
Proof.
  intros i cs. induction cs as [|c cs IH]; intros w w' b Hw Hw'; [reflexivity|].
  cbn [do_calls filter]. destruct (do_call word expand w c) as [w1 o] eqn:E. destruct (do_calls word expand w1 cs) as [w2 os] eqn:E2. cbn [snd combine filter fst].
  destruct (on i c) eqn:Eo; cbn [map snd].
  - cbn [do_calls]. destruct (do_call word expand w' c) as [w1' o'] eqn:E'. destruct (do_calls word expand w1' (filter (on i) cs)) as [w2' os'] eqn:E2'. cbn [snd].
    assert (Q : exists b', nth i (own w1) None = Some b' /\ nth i (own w1') None = Some b' /\ o = o').
    { destruct c as [|j|j t]; cbn [on] in Eo; [discriminate| |]; apply Nat.eqb_eq in Eo; subst j; cbn [do_call] in E, E'.
      - injection E as <- <-. injection E' as <- <-. exists []. cbn [own]. rewrite !update_same by (eapply some_lt; eassumption). auto.
      - unfold seen_by in E, E'. rewrite Hw in E. rewrite Hw' in E'. destruct (content_handle word expand b t) as [[d a]|e]; injection E as <- <-; injection E' as <- <-.
        + exists d. split; [eapply put_own; exact Hw|]. split; [eapply put_own; exact Hw'|reflexivity].
        + exists b. auto. }
    destruct Q as (b' & Q1 & Q2 & <-). f_equal. specialize (IH w1 w1' b' Q1 Q2). rewrite E2, E2' in IH. exact IH.
  - assert (Q : nth i (own w1) None = Some b).
    { destruct c as [|j|j t]; cbn [on] in Eo; cbn [do_call] in E.
      - injection E as <- _. cbn [own]. rewrite app_nth1 by (eapply some_lt; eassumption). exact Hw.
      - apply Nat.eqb_neq in Eo. injection E as <- _. cbn [own]. rewrite update_other by exact Eo. exact Hw.
      - apply Nat.eqb_neq in Eo. destruct (content_handle word expand (seen_by w j) t) as [[d a]|e]; injection E as <- _; [eapply put_other; eassumption|exact Hw]. }
    specialize (IH w1 w' b Q Hw'). rewrite E2 in IH. exact IH.
Qed.
Lemma isolated : forall i cs w b, nth i (own w) None = Some b ->
  map snd (filter (fun p => on i (fst p)) (combine cs (snd (do_calls word expand w cs)))) = snd (do_calls word expand w (filter (on i) cs)).
Proof. intros. eapply isolated_gen; eassumption. Qed.
Lemma cleared : forall cs w i, i < length (own w) -> nth i (own (fst (do_calls word expand w (cs ++ [Clear i])))) None = Some [].
Proof.
  intros cs. induction cs as [|c cs IH]; intros w i L; [apply update_same; exact L|].
  cbn [List.app do_calls]. destruct (do_call word expand w c) as [w1 o] eqn:E. assert (L1 : i < length (own w1)).
  { destruct c as [|j|j t]; cbn [do_call] in E.
    - injection E as <- _. cbn [own]. rewrite app_length. lia.
    - injection E as <- _. cbn [own]. rewrite update_length. exact L.
    - destruct (content_handle word expand (seen_by w j) t) as [[d a]|e]; injection E as <- _; [|exact L]. unfold put. destruct (nth j (own w) None); cbn [own]; rewrite ?update_length; exact L. }
  specialize (IH w1 i L1). destruct (do_calls word expand w1 (cs ++ [Clear i])) as [w2 os]. exact IH.
Qed.
(** Definitions read one after the other by a cleared handler. *)
Definition definition (kv : str * str) : str := lit "\defcitealias" ++ group (fst kv) ++ group (snd kv).
Definition trimmed (kv : str * str) : str * str := (strip (fst kv), strip (expand (snd kv))).
Lemma define_all : forall defs w i d, nth i (own w) None = Some d -> Forall (fun kv => flat (fst kv) /\ closed (snd kv)) defs ->
  nth i (own (fst (do_calls word expand w (map (fun kv => Handle i (definition kv)) defs)))) None = Some (after d (map trimmed defs)).
Proof.
  induction defs as [|[k v] defs IH]; intros w i d Hw G; [exact Hw|]. apply Forall_cons_iff in G as [[G1 G2] G].
  cbn [map do_calls do_call]. unfold seen_by. rewrite Hw.
  pose proof (define_command word expand d [] k [] v [] eq_refl eq_refl G1 G2) as T. unfold takes in T. cbn [List.app] in T. rewrite app_nil_r in T. cbn [fst snd] in *. change (definition (k, v)) with (lit "\defcitealias" ++ group k ++ group v). rewrite T.
  specialize (IH (put w i (alias_set (strip k) (strip (expand v)) d)) i _ (put_own _ _ _ _ Hw) G).
  destruct (do_calls word expand (put w i (alias_set (strip k) (strip (expand v)) d)) (map (fun kv => Handle i (definition kv)) defs)) as [w2 os]. cbn [fst] in *. exact IH.
Qed.
Lemma last_call : forall cs w c, do_calls word expand w (cs ++ [c]) =
  (fst (do_call word expand (fst (do_calls word expand w cs)) c), snd (do_calls word expand w cs) ++ [snd (do_call word expand (fst (do_calls word expand w cs)) c)]).
Proof.
  induction cs as [|c0 cs IH]; intros w c; cbn [List.app do_calls].
  - cbn [fst snd List.app]. destruct (do_call word expand w c) as [w1 o]. reflexivity.
  - destruct (do_call word expand w c0) as [w1 o]. rewrite IH. destruct (do_calls word expand w1 cs) as [w2 os]. cbn [fst snd List.app]. reflexivity.
Qed.
(** What \citetalias says after any definitions *)
Lemma history : forall defs w i name ws body rest ks, nth i (own w) None = Some [] -> Forall (fun kv => flat (fst kv) /\ closed (snd kv)) defs ->
  In name ["\citetalias"; "\citepalias"]%string -> blank ws -> closed body -> expand body = join [c_comma] ks -> ks <> [] -> (forall k, In k ks -> ~ In c_comma k) ->
  last (snd (do_calls word expand w (map (fun kv => Handle i (definition kv)) defs ++ [Handle i ((lit name ++ ws ++ group body) ++ rest)]))) None =
    Some (Ok (one_or_list (map (fun k => alias_citation (map trimmed defs) (strip k)) ks), length (lit name ++ ws ++ group body))).
Proof.
  intros defs w i name ws body rest ks Hw G Hn Hb Hc He Nk Ck. rewrite last_call. cbn [snd]. rewrite last_last. cbn [do_call snd].
  unfold seen_by. rewrite (define_all defs w i [] Hw G). rewrite (use_command word expand (map trimmed defs) name ws body rest ks Hn Hb Hc He Nk Ck). reflexivity.
Qed.
End Runs.
Definition never : ch -> bool := fun _ => false.
Definition as_is : str -> str := fun s => s.
Lemma shared :
  snd (do_calls never as_is fresh [Create; Create; Handle 0 (lit "\defcitealias{knuth}{TAOCP}"); Handle 1 (lit "\citetalias{knuth}")]) =
    [None; None; Some (Ok (VNone, 27)); Some (Ok (VDict [(lit "type", VStr (lit "citation")); (lit "content", VList [VStr (lit "knuth")]); (lit "title", VStr (lit "TAOCP"))], 18))] /\
  snd (do_calls never as_is fresh [Create; Create; Handle 1 (lit "\citetalias{knuth}")]) =
    [None; None; Some (Ok (VDict [(lit "type", VStr (lit "citation")); (lit "content", VList [VStr (lit "knuth")])], 18))].
Proof. split; vm_compute; reflexivity. Qed.
