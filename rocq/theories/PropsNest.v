(** Property C66 (sections and paragraphs nest by level).  Specification
    vocabulary: NestSpec.v. *)
From Coq Require Import List NArith ZArith PeanoNat Lia Bool String.
From Verif Require Import ContentModel PyStr Json BuilderModel BuilderSpec TidySpec BuilderSample NestSpec NestProofs3.
Import ListNotations.
Notation length := List.length.
Notation concat := List.concat.
Open Scope list_scope.

(** Whatever organize_content returns (for any builder history and any token
    list with nothing but appendices and bibliographies after an appendix
    environment with content or after a bibliography in the appendix) is nested
    by level everywhere: a section contains only deeper sections, and whatever
    follows it up to the next section that is not deeper; likewise paragraphs. *)
Theorem C66_nested_by_level_partial : forall st tokens st' out, parsed tokens -> calm false tokens ->
  organize_content false st tokens = (st', Ok out) -> nested false out.
Proof. exact organized_nested. Qed.

(** What [nested] says, on lists: after a section, a sibling is a section that
    is not deeper, the appendix or the bibliography. *)
Theorem C66_after_a_section : forall b l p d v r z, nested b l -> l = p ++ VDict d :: v :: r -> kind_of_dict d = KSection z ->
  (exists z', kind_of v = KSection z' /\ not_deeper z' z) \/ kind_of v = KAppendix \/ kind_of v = KBibliography.
Proof. exact after_section. Qed.
(** Every section directly inside a section is deeper. *)
Theorem C66_inside_a_section : forall b l d d' z z', nested b l -> In (VDict d) l -> kind_of_dict d = KSection z ->
  In (VDict d') (children d) -> kind_of_dict d' = KSection z' -> deeper z' z.
Proof. exact inside_section. Qed.

Definition par (z : Z) : val := tok "paragraph" [(k_level, VInt z)].
Definition skeleton (v : val) : NestSpec.kind * list NestSpec.kind := match v with VDict d => (kind_of_dict d, map kind_of (children d)) | _ => (KPlain, []) end.
Definition shape (tokens : list val) : list (NestSpec.kind * list NestSpec.kind) := match snd (organize_content false cleared tokens) with Ok l => map skeleton l | _ => [] end.
(** A subparagraph of a paragraph goes into the paragraph outside sections, but
    inside a section it is put beside it. *)
Theorem C66_subparagraph_refuted :
  shape [par 1; par 2] = [(KParagraph (Some 1%Z), [KParagraph (Some 2%Z)])] /\
  shape [sec 1; par 1; par 2] = [(KSection (Some 1%Z), [KParagraph (Some 1%Z); KParagraph (Some 2%Z)])].
Proof. vm_compute. split; reflexivity. Qed.
(** After an appendix environment with content, text follows a section as its
    sibling. *)
Theorem C66_after_appendices_refuted : exists tokens st out, parsed tokens /\
  organize_content false cleared tokens = (st, Ok out) /\ ~ nested false out.
Proof. exact after_appendices. Qed.

(** \chapter gets the level of \section: a section of a chapter is put beside it. *)
Theorem C66_chapter_refuted : forall word, exists a b,
  content_handle word (fun s => s) [] (lit "\chapter{A}") = Ok ([], (a, 11)) /\
  content_handle word (fun s => s) [] (lit "\section{B}") = Ok ([], (b, 11)) /\
  shape [a; b] = [(KSection (Some 1%Z), []); (KSection (Some 1%Z), [])].
Proof. intros word. do 2 eexists. split; [reflexivity|]. split; [reflexivity|]. vm_compute. reflexivity. Qed.

Definition nest_sample : list val :=
  [txt "a"; par 1; txt "b"; par 2; sec 1; txt "c"; sec 2; txt "d"; sec 3; par 1; txt "e"; sec 2; sec 1; thm [sec 1; txt "x"];
   tok "appendix" []; sec 1; txt "y"; tok "bibliography" []].
Example C66_case : parsed nest_sample /\ calm false nest_sample /\
  shape nest_sample =
    [(KPlain, []); (KParagraph (Some 1%Z), [KPlain; KParagraph (Some 2%Z)]);
     (KSection (Some 1%Z), [KPlain; KSection (Some 2%Z); KSection (Some 2%Z)]); (KSection (Some 1%Z), [KPlain]);
     (KAppendix, [KSection (Some 1%Z)]); (KBibliography, [])].
Proof. split; [solve_parsed|]. split; [solve_calm|vm_compute; reflexivity]. Qed.

Print Assumptions C66_nested_by_level_partial.
Print Assumptions C66_after_a_section.
Print Assumptions C66_inside_a_section.
Print Assumptions C66_subparagraph_refuted.
Print Assumptions C66_after_appendices_refuted.
Print Assumptions C66_chapter_refuted.
