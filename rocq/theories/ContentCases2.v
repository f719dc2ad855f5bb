(** Cases for C116-C120. *)
From Coq Require Import List NArith ZArith PeanoNat Lia Bool String.
From Verif Require Import PyStr Regex Json TexUtilsModel DelimSpec DelimProofs DelimFinal ContentModel ContentSpec ContentSpec2 ContentProofs5 ContentProofs6 ContentProofs7.
Import ListNotations. Notation length := List.length. Open Scope list_scope.
Lemma closed_group : forall body, extract_nested_content ([c_lb] ++ body ++ [c_rb]) c_lb c_rb = (Some body, 1 + length body + 1) -> closed body.
Proof.
  intros body H. apply (proj1 (extract_nested_content_iff c_lb c_rb _ _ _ delims_curly)) in H as (ws & rest & E & Hw & Hb & Hc & L). split; assumption.
Qed.
Ltac notin := let X := fresh in intros X; cbn in X; repeat (destruct X as [X|X]; [discriminate X|]); exact X.
Lemma hyperref_case : closed (lit "the {first} one") /\ ~ In c_rk (lit " sec:a ") /\
  lit "\hyperref" ++ lit " " ++ bracketed (Some (lit " sec:a ")) ++ [] ++ group (lit "the {first} one") = lit "\hyperref [ sec:a ]{the {first} one}".
Proof. split; [apply closed_group; reflexivity|]. split; [notin|reflexivity]. Qed.
Lemma href_braces : forall word, content_handle word (fun s => s) [] (lit "\href{a{b}c}{text}") = Ok ([], (VNone, 0)).
Proof. reflexivity. Qed.
Lemma mark_given : forall word expand d a rest, ~ In c_rk a -> a <> [] ->
  takes (content_handle word expand d) (lit "\footnotemark" ++ [c_lk] ++ a ++ [c_rk]) rest d (token "footnote" [field "content" (VStr (strip a))]).
Proof.
  intros word expand d a rest G N. pose proof (footnotemark_command word expand d (Some a) rest G ltac:(discriminate)) as H. cbn [bracketed] in H. destruct a; [congruence|exact H].
Qed.
Lemma mark_bare : forall word expand d rest, (forall r, rest <> c_lk :: r) ->
  takes (content_handle word expand d) (lit "\footnotemark") rest d (token "footnote" [field "content" (VStr (lit "*"))]).
Proof.
  intros word expand d rest G. refine (footnotemark_command word expand d None rest I _). intros _. destruct rest as [|x r]; [reflexivity|]. cbn [first]. apply N.eqb_neq. intros <-. exact (G r eq_refl).
Qed.
Lemma caption_case : good_note (Some (lit "short")) /\ closed (lit "A {long} one") /\
  lit "\caption" ++ starred true ++ lit " " ++ bracketed (Some (lit "short")) ++ [] ++ group (lit "A {long} one") = lit "\caption* [short]{A {long} one}".
Proof. split; [cbn [good_note]; notin|]. split; [apply closed_group; reflexivity|reflexivity]. Qed.
Lemma blank_mark : forall word, content_handle word (fun s => s) [] (lit "\footnote [3]{text}") = Ok ([], (VNone, 0)) /\
  content_handle word (fun s => s) [] (lit "\caption[see {[1]}]{text}") = Ok ([], (VNone, 0)).
Proof. intros word. split; reflexivity. Qed.
Lemma cons_len : forall (a b : str) x y p q, a ++ x :: p = b ++ y :: q -> length a <= length b \/ exists m, a = b ++ y :: m.
Proof.
  induction a as [|z a IH]; intros b x y p q E; [left; cbn; lia|]. destruct b as [|w b]; cbn in E.
  - injection E as -> E. right. exists a. reflexivity.
  - assert (E1 : z = w) by congruence. assert (E2 : a ++ x :: p = b ++ y :: q) by congruence. subst w. destruct (IH _ _ _ _ _ E2) as [L|(m & ->)]; [left; cbn; lia|right; exists m; reflexivity].
Qed.
(** an earlier occurrence would begin inside [a] *)
Lemma first_place : forall (o a w : str) p, o = a ++ p -> (forallb (fun k => negb (startswith (skipn k o) w)) (seq 0 (length a)) = true) -> forall a' q, o = a' ++ w ++ q -> length a <= length a'.
Proof.
  intros o a w p -> F a' q E. destruct (Nat.le_gt_cases (length a) (length a')) as [L|L]; [exact L|]. exfalso. rewrite forallb_forall in F. specialize (F (length a') (proj2 (in_seq _ _ _) (conj (Nat.le_0_l _) L))).
  rewrite E in F. rewrite (skipn_app_exact a' (w ++ q) (length a') eq_refl), startswith_app in F. discriminate F.
Qed.
Lemma pages_case : option_page (Some (lit "width=3cm,page=12, trim={0 0}")) (Some 12) /\ option_pages (Some (lit "pages={1-3,5},scale=2")) (Some (lit "1-3,5")).
Proof.
  split.
  - cbn [option_page]. exists (lit "width=3cm,"), (lit "12"), (lit ", trim={0 0}"). split; [reflexivity|]. split; [split; [discriminate|intros x [<-|[<-|[]]]; split; vm_compute; discriminate]|]. split; [reflexivity|].
    split; [intros x b' E; change (lit ", trim={0 0}") with (44%N :: lit " trim={0 0}") in E; assert (X : x = 44%N) by congruence; subst x; intros [X1 _]; apply X1; reflexivity|].
    intros a' x q E _. eapply (first_place _ (lit "width=3cm,") (lit "page=") _ eq_refl); [reflexivity|exact E].
  - cbn [option_pages]. split; [discriminate|]. split; [intros x X; cbn in X; repeat (destruct X as [<-|X]; [first [left; split; vm_compute; discriminate|right; cbn; tauto]|]); destruct X|].
    exists [], (lit ",scale=2"). split; [intros; cbn; lia|]. left. reflexivity.
Qed.
Lemma options :
  (forall word, content_handle word (fun s => s) [] (lit "\includegraphics[startpage=2,page=5]{f}") =
     Ok ([], (token "includegraphics" [field "content" (VStr (lit "f")); field "page" (VInt 2)], 39))) /\
  (forall word, content_handle word (fun s => s) [] (lit "\includepdf[pages={1, 3}]{f}") = Ok ([], (token "includepdf" [field "content" (VStr (lit "f"))], 28))) /\
  (forall word, content_handle word (fun s => s) [] (lit "\includegraphics*{f}") = Ok ([], (VNone, 0))).
Proof. split; [|split]; intros word; reflexivity. Qed.
Lemma alias_case : alias_citation [(lit "a", lit "One"); (lit "b", lit "Two"); (lit "a", lit "Three")] (lit "a") =
    VDict [(lit "type", VStr (lit "citation")); (lit "content", VList [VStr (lit "a")]); (lit "title", VStr (lit "Three"))] /\
  Forall (fun kv => flat (fst kv) /\ closed (snd kv)) [(lit "a", lit "One"); (lit "b", lit "{T}wo")].
Proof.
  split; [reflexivity|]. apply Forall_cons; [|apply Forall_cons; [|apply Forall_nil]]; (split; [unfold flat; cbn [fst]; notin|apply closed_group; reflexivity]).
Qed.
Lemma dropped : forall word expand d ws1 o ws2 body rest, blank ws1 -> blank ws2 -> good_note o -> closed body ->
  takes (content_handle word expand d) (lit "\graphicspath" ++ ws1 ++ group body) rest d VNone /\
  takes (content_handle word expand d) (lit "\bookmark" ++ ws1 ++ bracketed o ++ ws2 ++ group body) rest d VNone.
Proof. intros. split; [apply graphicspath_command; assumption|apply bookmark_command; assumption]. Qed.
Lemma path_case : closed (lit "{fig/}{img/}") /\ lit "\graphicspath" ++ [] ++ group (lit "{fig/}{img/}") = lit "\graphicspath{{fig/}{img/}}".
Proof. split; [apply closed_group; reflexivity|reflexivity]. Qed.
Lemma input : forall word, content_handle word (fun s => s) [] (lit "\input chapter1") = Ok ([], (VNone, 0)) /\
  content_handle word (fun s => s) [] (lit "\bibliography{a,b}") = Ok ([], (token "bibliography_file" [field "content" (VStr (lit "a,b"))], 18)).
Proof. intros word. split; reflexivity. Qed.
Lemma bookmark_case : lit "\" ++ lit "below" ++ lit "pdfbookmark" ++ [] ++ bracketed (Some (lit "1")) ++ [] ++ group (lit "A") ++ [] ++ group (lit "x") = lit "\belowpdfbookmark[1]{A}{x}" /\
  good_note (Some (lit "1")) /\ flat (lit "A") /\ closed (lit "x").
Proof.
  split; [reflexivity|]. split; [intros H; cbn in H; intuition discriminate|]. split; [intros H; cbn in H; intuition discriminate|].
  apply closed_group; reflexivity.
Qed.
