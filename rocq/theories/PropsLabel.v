(** Properties of labels (C63, C65), for documents as sequences of events (LabelModel.v). *)
From Coq Require Import List NArith PeanoNat Lia Bool.
From Verif Require Import PyStr LabelModel LabelSpec LabelProofs LabelCases.
Import ListNotations.

(** C63: who owns a label.  Whenever a heading, footnote, caption or environment has been opened around or before
    it, the label goes to the innermost such environment or to what was opened last (owner_at), in document order. *)
Theorem C63_label_owner_partial : forall p l after o, owner_at None p = Some o ->
  exists a b, labels_of (put p l after) = a ++ [(l, Token o)] ++ b /\ length a = labels_before p.
Proof. exact label_owner. Qed.
Print Assumptions C63_label_owner_partial.
Example C63_case : let p := InEnv [EHead 1 []; ELeaf 2] false 3 [] (Here [ELeaf 4; EEnv false 5 [ELeaf 6] []]) in
  owner_at None p = Some 3 /\ labels_of (put p [97%N] [[ELeaf 7; ELabel [98%N]]; [ELeaf 8]]) = [([97%N], Token 3); ([98%N], Token 1)].
Proof. exact owner_case. Qed.
(** the environment that directly contains a label with no footnote, caption or heading before it there *)
Theorem C63_environment : forall before d id title inner l after, last_opened inner = None ->
  exists a b, labels_of (put (InEnv before d id title (Here inner)) l after) = a ++ [(l, Token id)] ++ b.
Proof. exact environment_owner. Qed.
Print Assumptions C63_environment.
(** false: a label after a footnote goes to the footnote, not to the section or environment it stands in *)
Theorem C63_footnote_refuted : forall l,
  labels_of [EHead 1 []; ENote 2 [ELeaf 3]; ELabel l] = [(l, Token 2)] /\
  labels_of [EEnv true 1 [ENote 2 [ELeaf 3]; ELabel l] []] = [(l, Token 2)].
Proof. exact footnote_owner. Qed.
Print Assumptions C63_footnote_refuted.

(** C65: every token that carries a label is in the output.  False: an environment that contains nothing but the
    label is dropped together with it. *)
Theorem C65_lost_refuted : forall l, labels_of [EEnv true 1 [ELabel l] []] = [(l, Token 1)] /\ output_of [EEnv true 1 [ELabel l] []] = [].
Proof. exact label_lost. Qed.
Print Assumptions C65_lost_refuted.
(** true when each environment that could be dropped contains a token *)
Theorem C65_kept_partial : forall doc l t, all_nonempty doc = true -> In (l, Token t) (labels_of doc) -> In t (output_of doc).
Proof. exact labels_kept. Qed.
Print Assumptions C65_kept_partial.
Example C65_case : forall l, all_nonempty [EHead 1 []; EEnv true 2 [ELeaf 3; ELabel l] []; ELabel l] = true /\
  labels_of [EHead 1 []; EEnv true 2 [ELeaf 3; ELabel l] []; ELabel l] = [(l, Token 2); (l, Token 1)].
Proof. exact kept_case. Qed.
(** no label disappears from the table of labels: one entry for each label command *)
Theorem C65_label_table : forall doc, length (labels_of doc) = count_labels doc.
Proof. exact label_count. Qed.
Print Assumptions C65_label_table.
