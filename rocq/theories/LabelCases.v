(** Concrete documents with labels. *)
From Coq Require Import List NArith PeanoNat Lia Bool.
From Verif Require Import PyStr LabelModel LabelSpec LabelProofs.
Import ListNotations.
Lemma owner_case : let p := InEnv [EHead 1 []; ELeaf 2] false 3 [] (Here [ELeaf 4; EEnv false 5 [ELeaf 6] []]) in
  owner_at None p = Some 3 /\ labels_of (put p [97%N] [[ELeaf 7; ELabel [98%N]]; [ELeaf 8]]) = [([97%N], Token 3); ([98%N], Token 1)].
Proof. cbn. split; reflexivity. Qed.
Lemma environment_owner : forall before d id title inner l after, last_opened inner = None ->
  exists a b, labels_of (put (InEnv before d id title (Here inner)) l after) = a ++ [(l, Token id)] ++ b.
Proof.
  intros before d id title inner l after H. destruct (label_owner (InEnv before d id title (Here inner)) l after id) as (a & b & E & _); [|eauto].
  cbn [owner_at]. rewrite H. reflexivity.
Qed.
Lemma footnote_owner : forall l,
  labels_of [EHead 1 []; ENote 2 [ELeaf 3]; ELabel l] = [(l, Token 2)] /\
  labels_of [EEnv true 1 [ENote 2 [ELeaf 3]; ELabel l] []] = [(l, Token 2)].
Proof. split; reflexivity. Qed.
Lemma label_lost : forall l, labels_of [EEnv true 1 [ELabel l] []] = [(l, Token 1)] /\ output_of [EEnv true 1 [ELabel l] []] = [].
Proof. split; reflexivity. Qed.
Lemma kept_case : forall l, all_nonempty [EHead 1 []; EEnv true 2 [ELeaf 3; ELabel l] []; ELabel l] = true /\
  labels_of [EHead 1 []; EEnv true 2 [ELeaf 3; ELabel l] []; ELabel l] = [(l, Token 2); (l, Token 1)].
Proof. split; reflexivity. Qed.
Lemma label_count : forall doc, length (labels_of doc) = count_labels doc.
Proof. intros doc. destruct (all_goods doc fresh) as [(new & E & L) _]. unfold labels_of. rewrite E. exact L. Qed.
