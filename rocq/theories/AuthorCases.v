(** C97: computed cases. *)
From Coq Require Import List NArith PeanoNat Lia Bool String.
From Verif Require Import PyStr Regex DelimSpec Json CommandSpec CommandCases ItemSpec EnvHandlerCases ContentModel AuthorModel AuthorSpec AuthorProofs.
Import ListNotations. Notation length := List.length. Open Scope list_scope.
(** a parser that returns the text as one token *)
Definition plain (s : str) : res (list val) := Ok [VStr s].
Definition authors_of (s : str) : option (list val) := match author_handle aw plain s with Ok (Some (VDict [_; (_, VList l)]), _) => Some l | _ => None end.
Example nested_split : authors_of (lit "\author{A \thanks{x \and y}}") = Some [VList [VStr (lit "A \thanks{x")]; VList [VStr (lit "y}")]].
Proof. vm_compute. reflexivity. Qed.
Example escaped_split : authors_of (lit "\author{A\\and B}") = Some [VList [VStr (lit "A\")]; VList [VStr (lit "B")]].
Proof. vm_compute. reflexivity. Qed.
Example curraddr_lost : author_handle aw plain (lit "\curraddr{Paris}") = Ok (None, 9).
Proof. vm_compute. reflexivity. Qed.
Example unclosed_raises : author_handle aw plain (lit "\author{A {B}") = Raise TypeError.
Proof. vm_compute. reflexivity. Qed.
Example unclosed_email : author_handle aw plain (lit "\email{a") = Ok (Some (VDict [(lit "type", VStr (lit "email")); (lit "content", VNone)]), 6).
Proof. vm_compute. reflexivity. Qed.
Definition and_at (s : str) : bool := match s with b :: x :: y :: z :: q => (N.eqb b c_bs && (N.eqb x 97 || N.eqb x 65) && (N.eqb y 110 || N.eqb y 78) && (N.eqb z 100 || N.eqb z 68) && negb (starts_with aw q))%N | _ => false end.
Lemma and_at_ok : forall s, and_at s = false -> forall a q, and_word a -> s = a ++ q -> starts_with aw q = true.
Proof.
  intros s H a q (x & y & z & Hx & Hy & Hz & ->) ->. cbn [List.app and_at] in H. assert (T : (N.eqb c_bs c_bs && (N.eqb x 97 || N.eqb x 65) && (N.eqb y 110 || N.eqb y 78) && (N.eqb z 100 || N.eqb z 68))%N = true) by (destruct Hx as [-> | ->], Hy as [-> | ->], Hz as [-> | ->]; reflexivity).
  rewrite T in H. cbn [andb] in H. apply negb_false_iff. exact H.
Qed.
Fixpoint split_now (n : nat) (s : str) : list str :=
  match n with O => [[]] | S n => match s with [] => [[]] | x :: r => if and_at s then [] :: split_now n (skipn 4 s) else match split_now n r with p :: ps => (x :: p) :: ps | [] => [] end end end.
Lemma split_ok : forall n s, length s <= n -> parts aw s (split_now n s).
Proof.
  induction n as [|n IH]; intros s L; [destruct s; [constructor|cbn in L; lia]|]. destruct s as [|x r]; [constructor|]. cbn [split_now]. destruct (and_at (x :: r)) eqn:A.
  - destruct r as [|y [|z [|u q]]]; try discriminate A. cbn [and_at] in A. repeat (apply andb_prop in A as [A ?]). change (x :: y :: z :: u :: q) with ([x; y; z; u] ++ q). change (skipn 4 ([x; y; z; u] ++ q)) with q. apply pa_and; [|apply negb_true_iff; assumption|apply IH; cbn in L; lia].
    apply N.eqb_eq in A. subst x. exists y, z, u. repeat split; match goal with E : (N.eqb ?v _ || _)%N = true |- (?v = _ \/ _)%N => apply orb_prop in E as [E|E]; apply N.eqb_eq in E; [left|right]; exact E end.
  - assert (H := IH r ltac:(cbn in L; lia)). destruct (split_now n r) as [|p ps] eqn:E; [inversion H|].
    constructor; [apply and_at_ok; exact A|exact H].
Qed.
Definition names : str := lit "\AND Ann \thanks{X} \And B\andy \and  Cy ".
Lemma names_parts : parts aw names [[]; lit " Ann \thanks{X} "; lit " B\andy "; lit "  Cy "].
Proof. exact (split_ok 60 names ltac:(vm_compute; lia)). Qed.
Lemma names_shown : shown [[]; lit " Ann \thanks{X} "; lit " B\andy "; lit "  Cy "] [lit "Ann \thanks{X}"; lit "B\andy"; lit "Cy"].
Proof. apply sh_blank; [reflexivity|]. apply sh_part; [vm_compute; discriminate|]. apply sh_part; [vm_compute; discriminate|]. apply sh_part; [vm_compute; discriminate|]. constructor. Qed.
Lemma names_parsed : parsed plain [lit "Ann \thanks{X}"; lit "B\andy"; lit "Cy"] [VList [VStr (lit "Ann \thanks{X}")]; VList [VStr (lit "B\andy")]; VList [VStr (lit "Cy")]].
Proof. apply pd_some; [reflexivity|]. apply pd_some; [reflexivity|]. apply pd_some; [reflexivity|]. constructor. Qed.
Lemma names_argument : argument true (lit " [short] {" ++ names ++ lit "} rest") names (lit " rest").
Proof. apply (ar_option true (lit " ") (lit "short") (lit " ") names (lit " rest")); try reflexivity; [intros I; cbn in I; repeat (destruct I as [I|I]; [discriminate I|]); exact I|apply closed_grp; vm_compute; reflexivity]. Qed.
Lemma open_never : forall b n, ~ group_at c_lb c_rb (lit "{A {B}") b n.
Proof. intros b n G. apply (DelimProofs.extract_nested_content_iff _ _ _ _ _ DelimProofs.delims_curly) in G. vm_compute in G. discriminate. Qed.
