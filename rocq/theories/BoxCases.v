(** Cases and refutations for C40, C78-C80; instances of BoxHandler. *)
From Coq Require Import List NArith PeanoNat Lia Bool String.
From Verif Require Import PyStr Regex Json TexUtilsModel DelimSpec TextModel BuilderModel ContentModel CommandModel CommandSpec TokensModel BoxModel BoxSpec BoxProofs BoxProofs2 AliasModel AliasSpec AliasProofs.
Import ListNotations. Notation length := List.length. Open Scope list_scope.

(** no process_content_fn *)
Definition raw (st : boxes) (s : str) : boxes * res val := (st, Ok (VStr s)).
(** the parser on one unknown command and on one formula (tex_parser.py:238-244, C69) *)
Definition unknown_command (st : boxes) (s : str) : boxes * res val :=
  (st, Ok (VList [VDict [(k_type, VStr (lit "command")); (lit "command", VStr s)]])).
Definition formula (body : str) (st : boxes) (s : str) : boxes * res val :=
  (st, Ok (VList [VDict [(k_type, VStr (lit "equation")); (k_content, VStr body)]])).

Lemma scalebox_vertical : handle raw no_boxes (lit "\scalebox{0.5}[0.8]{text}") = (no_boxes, Ok (VNone, 14)).
Proof. vm_compute. reflexivity. Qed.
Lemma starred_box : handle raw no_boxes (lit "\resizebox*{2cm}{!}{text}") = (no_boxes, Ok (VNone, 0)).
Proof. vm_compute. reflexivity. Qed.
Lemma hbox_to : handle raw no_boxes (lit "\hbox to 3cm\bgroup a\egroup b {c} d") = (no_boxes, Ok (BoxModel.text_token (lit "c"), 34)).
Proof. vm_compute. reflexivity. Qed.
Lemma mbox_raises : handle unknown_command no_boxes (lit "\mbox{\foo}") = (no_boxes, Raise KeyError).
Proof. vm_compute. reflexivity. Qed.
Lemma mbox_formula : handle (formula (lit "x^2")) no_boxes (lit "\mbox{$x^2$}") = (no_boxes, Ok (BoxModel.text_token (lit "x^2"), 12)).
Proof. vm_compute. reflexivity. Qed.
Lemma savebox_width : handle raw no_boxes (lit "\savebox{\a}[3cm]{text}") = (no_boxes, Ok (VNone, 12)).
Proof. vm_compute. reflexivity. Qed.
Lemma setbox_no_equals : handle raw no_boxes (lit "\setbox\a\hbox{text}") = (no_boxes, Ok (VNone, 0)).
Proof. vm_compute. reflexivity. Qed.

(** Numbered boxes are never read. *)
Lemma numbered_unread : forall p s n n' t, snd (handle (pure p) {| saved := s; numbered := n |} t) = snd (handle (pure p) {| saved := s; numbered := n' |} t).
Proof.
  intros p s n n' t.
  assert (B : forall c, snd (handle_box (pure p) {| saved := s; numbered := n |} c) = snd (handle_box (pure p) {| saved := s; numbered := n' |} c) /\
    fst (handle_box (pure p) {| saved := s; numbered := n |} c) = {| saved := s; numbered := n |} /\ fst (handle_box (pure p) {| saved := s; numbered := n' |} c) = {| saved := s; numbered := n' |}).
  { intros c. unfold handle_box. destruct (match re_match_at BOX_PATTERN c 0 with Some m => Some m | None => re_match_at FANCYHEAD_PATTERN c 0 end) as [m|]; [|auto].
    cbv zeta. destruct (extract_delimited_args _ _) as [args e]. destruct (if length args =? _ then last args None else None) as [[|y b]|]; auto. }
  unfold handle. destruct (re_match_at SETBOX_PATTERN t 0) as [m|].
  - unfold handle_setbox. cbv zeta. destruct (re_match_at BOX_PATTERN _ 0).
    + match goal with |- context [handle_box (pure p) {| saved := s; numbered := n |} ?c] => destruct (B c) as (B1 & B2 & B3);
        destruct (handle_box (pure p) {| saved := s; numbered := n |} c) as [st1 r1]; destruct (handle_box (pure p) {| saved := s; numbered := n' |} c) as [st2 r2] end.
      cbn [fst snd] in B1, B2, B3. subst. destruct r2 as [[v e]|ex]; [|reflexivity]. destruct (truthy v); [reflexivity|].
      destruct (extract_delimited_args _ [c_lb]) as [[|[b|] l] e']; reflexivity.
    + destruct (extract_delimited_args _ [c_lb]) as [[|[b|] l] e']; reflexivity.
  - destruct (re_match_at SAVED_BOX_PATTERN t 0) as [m|]; [|apply (B t)]. unfold handle_saved. cbv zeta. destruct (startswith _ _); [reflexivity|].
    destruct (str_eqb _ _ || str_eqb _ _); [|reflexivity]. destruct (extract_delimited_args _ [c_lb]) as [[|[b|] l] e']; reflexivity.
Qed.

(** ** Instances *)
Definition on (i : nat) (c : call) : bool := match c with Create => false | Clear j => i =? j | Handle j _ => i =? j end.
Lemma update_same : forall A i (x : A) l d, i < length l -> nth i (update i x l) d = x.
Proof. intros A i x l d. revert i. induction l as [|y l IH]; intros [|i] L; cbn in *; try lia; [reflexivity|]. apply IH. lia. Qed.
Lemma update_other : forall A i j (x : A) l d, i <> j -> nth i (update j x l) d = nth i l d.
Proof. intros A i j x l d. revert i j. induction l as [|y l IH]; intros [|i] [|j] N; cbn; try reflexivity; try lia. apply IH. lia. Qed.
Lemma some_lt : forall i (l : list (option boxes)) b, nth i l None = Some b -> i < length l.
Proof. intros i l b H. destruct (Nat.ltb i (length l)) eqn:E; [apply Nat.ltb_lt; exact E|]. apply Nat.ltb_ge in E. rewrite nth_overflow in H by exact E. discriminate. Qed.
Lemma isolated_gen : forall process i cs w w' b, nth i (own w) None = Some b -> nth i (own w') None = Some b ->
  map snd (filter (fun p => on i (fst p)) (combine cs (snd (do_calls process w cs)))) = snd (do_calls process w' (filter (on i) cs)).
Proof.
  intros process i cs. induction cs as [|c cs IH]; intros w w' b Hw Hw'; [reflexivity|].
  cbn [do_calls filter]. destruct (do_call process w c) as [w1 o] eqn:E. destruct (do_calls process w1 cs) as [w2 os] eqn:E2. cbn [snd combine filter fst].
  assert (O : snd (do_calls process w1 cs) = os) by (rewrite E2; reflexivity).
  destruct (on i c) eqn:Eo; cbn [map snd].
  - cbn [do_calls]. destruct (do_call process w' c) as [w1' o'] eqn:E'. destruct (do_calls process w1' (filter (on i) cs)) as [w2' os'] eqn:E2'. cbn [snd].
    assert (Q : exists b', nth i (own w1) None = Some b' /\ nth i (own w1') None = Some b' /\ o = o').
    { destruct c as [|j|j t]; cbn [on] in Eo; [discriminate| |]; apply Nat.eqb_eq in Eo; subst j; cbn [do_call] in E, E'.
      - injection E as <- <-. injection E' as <- <-. exists no_boxes. cbn [own]. rewrite !update_same by (eapply some_lt; eassumption). auto.
      - unfold seen_by in E, E'. rewrite Hw in E. rewrite Hw' in E'. destruct (handle process b t) as [b' r]. injection E as <- <-. injection E' as <- <-. exists b'. unfold put. rewrite Hw, Hw'. cbn [own].
        rewrite !update_same by (eapply some_lt; eassumption). auto. }
    destruct Q as (b' & Q1 & Q2 & <-). f_equal. specialize (IH w1 w1' b' Q1 Q2). rewrite E2, E2' in IH. exact IH.
  - assert (Q : nth i (own w1) None = Some b).
    { destruct c as [|j|j t]; cbn [on] in Eo; cbn [do_call] in E.
      - injection E as <- _. cbn [own]. rewrite app_nth1 by (eapply some_lt; eassumption). exact Hw.
      - apply Nat.eqb_neq in Eo. injection E as <- _. cbn [own]. rewrite update_other by exact Eo. exact Hw.
      - apply Nat.eqb_neq in Eo. destruct (handle process (seen_by w j) t) as [b' r]. injection E as <- _. unfold put. destruct (nth j (own w) None); [cbn [own]; rewrite update_other by exact Eo; exact Hw|exact Hw]. }
    specialize (IH w1 w' b Q Hw'). rewrite E2 in IH. exact IH.
Qed.
Lemma isolated : forall process i cs w b, nth i (own w) None = Some b ->
  map snd (filter (fun p => on i (fst p)) (combine cs (snd (do_calls process w cs)))) = snd (do_calls process w (filter (on i) cs)).
Proof. intros. eapply isolated_gen; eassumption. Qed.
Lemma cleared : forall process cs w i, i < length (own w) -> nth i (own (fst (do_calls process w (cs ++ [Clear i])))) None = Some no_boxes.
Proof.
  intros process cs. induction cs as [|c cs IH]; intros w i L.
  - cbn. apply update_same. exact L.
  - cbn [List.app do_calls]. destruct (do_call process w c) as [w1 o] eqn:E. assert (L1 : i < length (own w1)).
    { destruct c as [|j|j t]; cbn [do_call] in E.
      - injection E as <- _. cbn [own]. rewrite app_length. lia.
      - injection E as <- _. cbn [own]. assert (U : forall A k (x : A) l, length (update k x l) = length l) by (intros A k x l; revert k; induction l; intros [|k]; cbn; auto). rewrite U. exact L.
      - destruct (handle process (seen_by w j) t) as [b' r]. injection E as <- _. unfold put. assert (U : forall A k (x : A) l, length (update k x l) = length l) by (intros A k x l; revert k; induction l; intros [|k]; cbn; auto).
        destruct (nth j (own w) None); cbn [own]; rewrite ?U; exact L. }
    specialize (IH w1 i L1). destruct (do_calls process w1 (cs ++ [Clear i])) as [w2 os]. exact IH.
Qed.
Lemma shared : snd (do_calls raw fresh [Create; Create; Handle 0 (lit "\sbox{\a}{secret}"); Handle 1 (lit "\usebox{\a}")]) =
    [None; None; Some (Ok (VNone, 17)); Some (Ok (BoxModel.text_token (lit "secret"), 11))] /\
  snd (do_calls raw fresh [Create; Create; Handle 1 (lit "\usebox{\a}")]) = [None; None; Some (Ok (VNone, 11))].
Proof. split; vm_compute; reflexivity. Qed.

(** ** Token objects *)
Definition txt (s : string) : dict := [(k_type, VStr (lit "text")); (k_content, VStr (lit s))].
Definition eqn (s : string) : dict := [(k_type, VStr (lit "equation")); (k_content, VStr (lit s))].
(** \sbox{\a}{X} $x$ \usebox{\a} y \usebox{\a} *)
Lemma box_grows : parse_acts [ASave (lit "a") [AAdd (txt "X") false]; AAdd (eqn "x") false; AUse (lit "a"); AAdd (txt " y ") false; AUse (lit "a")] =
  Ok [eqn "x"; txt "X y X y "].
Proof. vm_compute. reflexivity. Qed.
Lemma box_label : parse_acts [ASave (lit "a") [AAdd (eqn "x") false]; AUse (lit "a"); ALabel (lit "one"); AAdd (txt " y ") false; AUse (lit "a")] =
  Ok [set (lit "labels") (VList [VStr (lit "one")]) (eqn "x"); txt " y "; set (lit "labels") (VList [VStr (lit "one")]) (eqn "x")].
Proof. vm_compute. reflexivity. Qed.
Lemma box_means : means [] [ASave (lit "a") [AAdd (txt "X") false; AAdd (eqn "e") false]; AAdd (txt "p ") false; AUse (lit "a"); AAdd (eqn "x") false; AUse (lit "a")] ([], false)
  [(lit "a", Some [txt "X"; eqn "e"])] ([txt "p X"; eqn "e"; eqn "x"; txt "X"; eqn "e"], true).
Proof.
  eapply me_save.
  { eapply me_add; [apply (pu_append false (txt "X") false [] false); vm_compute; reflexivity|]. eapply me_add; [apply (pu_append false (eqn "e") false [txt "X"] false); vm_compute; reflexivity|]. apply me_nil. }
  eapply me_add; [apply (pu_append false (txt "p ") false [] false); vm_compute; reflexivity|].
  eapply me_use; [reflexivity| |].
  { eapply pa_cons; [apply (pu_merge true (txt "X") false [txt "p "] [txt "p X"]); vm_compute; reflexivity|].
    eapply pa_cons; [apply (pu_append true (eqn "e") false [txt "p X"] false); vm_compute; reflexivity|]. apply pa_nil. }
  eapply me_add; [apply (pu_append false (eqn "x") false [txt "p X"; eqn "e"] true); vm_compute; reflexivity|].
  eapply me_use; [reflexivity| |].
  { eapply pa_cons; [apply (pu_append true (txt "X") false [txt "p X"; eqn "e"; eqn "x"] false); vm_compute; reflexivity|].
    eapply pa_cons; [apply (pu_append true (eqn "e") false [txt "p X"; eqn "e"; eqn "x"; txt "X"] true); vm_compute; reflexivity|]. apply pa_nil. }
  apply me_nil.
Qed.

(** Clearing an instance leaves the others as they are. *)
Lemma clear_others : forall process w i j, i <> j -> seen_by (fst (do_call process w (Clear i))) j = seen_by w j.
Proof.
  intros process w i j N. cbn [do_call fst]. unfold seen_by. cbn [own class_boxes]. rewrite update_other by (intros ->; congruence). reflexivity.
Qed.
