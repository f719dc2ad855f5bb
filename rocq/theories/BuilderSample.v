(** Example documents for PropsBuilder.v *)
From Coq Require Import List NArith ZArith PeanoNat Lia Bool String.
From Verif Require Import PyStr Json BuilderModel BuilderSpec BuilderProofs BuilderProofs2 BuilderProofs3 TidySpec TidyProofs TidyProofs2 BuilderFinal.
Import ListNotations.
Notation length := List.length.
Notation concat := List.concat.
Open Scope list_scope.

(** * Example documents *)
Definition tok (ty : string) (fields : list (str * val)) : val := VDict ((k_type, VStr (lit ty)) :: fields).
Definition txt (s : string) : val := tok "text" [(k_content, VStr (lit s))].
Definition sec (z : Z) : val := tok "section" [(k_title, VList [txt "T"; txt "U"]); (k_level, VInt z); (k_numbered, VBool true)].
Definition eqn : val := tok "equation" [(k_content, VStr (lit "x")); (k_numbered, VBool true)].
Definition thm (l : list val) : val := tok "math_env" [(k_name, VStr (lit "theorem")); (k_numbered, VBool true); (k_content, VList l)].
Definition sample : list val :=
  [txt "a"; txt "b"; sec 1; eqn; sec 2; thm [eqn; tok "list" [(k_content, VList [txt "i"])]]; sec 2; sec 1; thm []; sec 3;
   tok "appendix" [(k_content, VList [])]; sec 1; eqn; sec 2; tok "bibliography" [(k_content, VList [])]].

Ltac solve_parsed := vm_compute; repeat (first
  [ apply pa_nil
  | apply pa_dict;
      [ let E := fresh in intros ? E; vm_compute in E; first [discriminate E | injection E as <-]
      | let T := fresh in intros T; first [vm_compute in T; discriminate T | eexists; vm_compute; reflexivity]
      | let T := fresh in intros T; vm_compute in T; discriminate T
      | vm_compute | ]
  | apply pa_scalar; [intros [] | intros ?; discriminate | ] ]).
Ltac solve_document := vm_compute; repeat (first
  [ apply doc_nil
  | apply doc_appendix; [vm_compute; reflexivity | right; eexists; vm_compute; reflexivity | vm_compute | ]
  | apply doc_bibliography; [vm_compute; reflexivity | intros _; reflexivity | vm_compute | ]
  | eapply doc_section; [vm_compute; reflexivity | vm_compute; reflexivity | left; vm_compute; reflexivity | intros _; lia | ]
  | eapply doc_other; [vm_compute; reflexivity | intros [K|[K|[K|K]]]; discriminate K | vm_compute | ] ]).
Ltac solve_walk := vm_compute; repeat (first
  [ apply wk_nil
  | apply wk_appendix; [vm_compute; reflexivity | vm_compute | ]
  | apply wk_list; [vm_compute; reflexivity | vm_compute | ]
  | apply wk_other; [let K := fresh in intros K; vm_compute in K; discriminate K | let K := fresh in intros K; vm_compute in K; discriminate K | vm_compute | ]
  | apply wk_leaf; [intros [] | ] ]).
Lemma sample_parsed : parsed sample.
Proof. solve_parsed. Qed.
Lemma sample_document : document false sample.
Proof. solve_document. Qed.
Lemma sample_walk : exists es, walk false 0 sample es /\ length es = 18.
Proof. eexists. split; [solve_walk|reflexivity]. Qed.

Ltac solve_preorder := vm_compute; repeat (first [ apply po_nil | apply po_tok; [vm_compute|] | apply po_leaf; [intros [] | ] ]).

(** the numbers of the tokens of a type in the result, in order *)
Fixpoint numbering_of (fuel : nat) (ty : string) (l : list val) : list str :=
  match fuel with
  | O => []
  | S fuel => concat (map (fun v => match v with
      | VDict d => (if is_str (get k_type d) ty then match get k_numbering d with VStr s => [s] | _ => [] end else []) ++ numbering_of fuel ty (children d)
      | _ => [] end) l)
  end.
Definition numberings (ty : string) (tokens : list val) : list str :=
  match snd (organize_content false cleared tokens) with Ok out => numbering_of 20 ty out | _ => [] end.

Lemma letter_ok : forall n, 1 <= n <= 26 ->
  exists c, first_component true n = [c] /\ nth_error (lit "ABCDEFGHIJKLMNOPQRSTUVWXYZ") (n - 1) = Some c.
Proof. intros n H. do 27 (destruct n as [|n]; [try lia; eexists; split; reflexivity|]). lia. Qed.
Lemma letter_refuted :
  numberings "section" [tok "appendix" [(k_content, VList [])]; sec 2] = [lit "@.1"] /\
  nth_error (numberings "section" (tok "appendix" [(k_content, VList [])] :: repeat (sec 1) 27)) 26 = Some (lit "[").
Proof. split; vm_compute; reflexivity. Qed.
Lemma part_refuted :
  snd (organize_content false cleared [sec 0]) = Raise KeyError /\ snd (organize_content false cleared [sec 4]) = Raise KeyError.
Proof. split; vm_compute; reflexivity. Qed.
