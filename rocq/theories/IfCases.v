From Coq Require Import List NArith PeanoNat Lia Bool String.
From Verif Require Import PyStr Regex Json IfModel IfSpec IfProofs TableProofs2 IfProofs2 IfProofs3.
Import ListNotations. Notation length := List.length. Notation concat := List.concat. Open Scope list_scope.

Lemma finds_nil : forall s k, s [] = None -> finds s k [].
Proof. intros s k H b a E. symmetry in E. apply app_eq_nil in E as [_ ->]. exact H. Qed.
Lemma finds_cons : forall s k i r, s (render (i :: r)) = first_of k (i :: r) 0 -> finds s k r -> finds s k (i :: r).
Proof. intros s k i r H F [|j b] a E; cbn [app] in E; [subst a; exact H|]. injection E as _ E. apply (F b a E). Qed.
Ltac findall := repeat (apply finds_cons; [vm_compute; reflexivity|]); apply finds_nil; vm_compute; reflexivity.

Notation def_reads := (reads (searcher IF_PATTERN) (searcher FI_PATTERN) (searcher ELSE_PATTERN) (searcher_group ELSIF_PATTERN)).
Definition ex_b0 : list item := [Txt (lit "aa "); Open (lit "\ifx\a"); Txt (lit "\b bb"); Else (lit "\else"); Txt (lit " cc"); Close (lit "\fi"); Txt (lit " dd")].
Definition ex_alts : list alternative := [(lit "\elsif\x\y", Some (lit "\x\y"), [Txt (lit "\ee")]); (lit "\elseif\z\w", Some (lit "\z\w"), [Txt (lit " gg ")])].
Definition ex_b1 : list item := [Txt (lit " ff")].
Definition ex_items : list item := ex_b0 ++ alternatives ex_alts ++ Else (lit "\else") :: ex_b1 ++ Close (lit "\fi") :: [Txt (lit " rest")].
Lemma ex_marks : forall i, In i ex_items -> is_txt i = false -> item_text i <> [].
Proof. intros i H. assert (G : forallb (fun i => is_txt i || negb (nilb (item_text i))) ex_items = true) by (vm_compute; reflexivity).
  rewrite forallb_forall in G. specialize (G i H). intros E. rewrite E in G. cbn in G. intros X. rewrite X in G. discriminate G. Qed.
Lemma ex_reads : def_reads ex_items.
Proof. split; [|split; [|split; [|split; [|exact ex_marks]]]]; unfold ex_items, ex_b0, ex_alts, ex_b1, alternatives, alt_items; cbn [map concat app fst snd]; findall. Qed.
Lemma ex_branch : branch ex_b0 /\ branch ex_b1 /\ (forall a, In a ex_alts -> branch (snd a)) /\
  (forall b, In b (removelast (map snd ex_alts)) -> render b <> strip (render ex_b0)).
Proof.
  split; [|split; [|split]].
  - apply b_txt. apply (b_if false _ _ [Txt (lit "\b bb"); Else (lit "\else"); Txt (lit " cc")] [Txt (lit " dd")]).
    + apply b_txt, b_else, b_txt, b_nil. reflexivity.
    + apply b_txt, b_nil.
  - apply b_txt, b_nil.
  - intros a [<-|[<-|[]]]; apply b_txt, b_nil.
  - intros b [<-|[]]. vm_compute. discriminate.
Qed.
Lemma ex_closed : extract_default (lit "aa \ifx\a\b bb\else cc\fi dd\elsif\x\y\ee\elseif\z\w gg \else ff\fi rest") =
  Ok (lit "aa \ifx\a\b bb\else cc\fi dd", lit "ff", [(Some (lit "\x\y"), lit "\ee"); (Some (lit "\z\w"), lit "gg")], 67).
Proof. vm_compute. reflexivity. Qed.
Definition ex_open : list item := [Txt (lit "aa "); Open (lit "\ifx\a"); Txt (lit "\b bb"); Close (lit "\fi"); Else (lit "\else")].
Lemma ex_open_reads : def_reads (ex_open ++ [Txt (lit " cc")]) /\ closes 1 ex_open = false /\ extract_default (render (ex_open ++ [Txt (lit " cc")])) = Raise ValueError.
Proof.
  split; [|split; vm_compute; reflexivity]. split; [|split; [|split; [|split]]]; unfold ex_open; cbn [app]; try findall.
  intros i H. assert (G : forallb (fun i => is_txt i || negb (nilb (item_text i))) (ex_open ++ [Txt (lit " cc")]) = true) by (vm_compute; reflexivity).
  rewrite forallb_forall in G. specialize (G i H). intros E. rewrite E in G. cbn in G. intros X. rewrite X in G. discriminate G.
Qed.
