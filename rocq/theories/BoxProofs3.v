(** C78 in terms of BoxSpec.yields. *)
From Coq Require Import List NArith PeanoNat Lia Bool String.
From Verif Require Import PyStr Regex Json TexUtilsModel DelimSpec TextModel BuilderModel ContentModel CommandModel CommandSpec BoxModel BoxSpec BoxProofs BoxProofs2.
Import ListNotations. Notation length := List.length. Open Scope list_scope.

Lemma box_yields : forall process st st' name spec args rs b p v w, In (name, spec) box_commands -> name <> lit "mbox" -> args_at args spec (rs ++ [Some b]) p -> b <> [] ->
  process st b = (st', Ok v) -> yields v w -> handle process st ([c_bs] ++ name ++ args) = (st', Ok (w, 1 + length name + p)).
Proof.
  intros process st st' name spec args rs b p v w I N A B P Y. rewrite (box_handled _ _ _ _ _ _ _ _ I A B), P. cbn [fst snd bind].
  unfold content_of. destruct (str_eqb name (lit "mbox")) eqn:E; [apply str_eqb_spec in E; contradiction|].
  cbn [bind]. destruct Y as [s|d c Ht Hc|d Ht|l]; cbn [box_token bind]; try reflexivity.
  - unfold is_str, get, getitem. change k_type with (lit "type"). change k_content with (lit "content"). rewrite Ht, Hc. reflexivity.
  - unfold is_str, get. change k_type with (lit "type"). destruct (lookup (lit "type") d) as [[]|]; try reflexivity.
    destruct (str_eqb _ (lit "group")) eqn:E2; [|reflexivity]. apply str_eqb_spec in E2. subst. contradiction.
Qed.
(** \mbox with a text that is processed to a string or to text tokens *)
Lemma mbox_yields : forall process st st' args b p, args_at args (lit "{") [Some b] p -> b <> [] ->
  (forall s, process st b = (st', Ok (VStr s)) -> handle process st (lit "\mbox" ++ args) = (st', Ok (text_token (strip_latex_newlines s), 5 + p))) /\
  (forall l, process st b = (st', Ok (VList (map text_token l))) -> handle process st (lit "\mbox" ++ args) = (st', Ok (text_token (strip_latex_newlines (join [c_sp] l)), 5 + p))).
Proof.
  intros process st st' args b p A B.
  assert (H : handle process st (lit "\mbox" ++ args) = _) by (apply (box_handled process st (lit "mbox") (lit "{") args [] b p); [vm_compute; tauto|exact A|exact B]).
  split; intros x P; rewrite H, P; cbn [fst snd bind]; unfold content_of; rewrite str_eqb_refl.
  - reflexivity.
  - assert (F : flatten_all_to_string (VList (map text_token x)) = Ok (join [c_sp] x)).
    { unfold flatten_all_to_string. cbn [flatten_token].
      assert (G : forall l, (fix go l := match l with [] => Ok [] | y :: r => do a <- flatten_token y; do b <- go r; Ok (a :: b) end) (map text_token l) = Ok l).
      { induction l as [|y l IH]; [reflexivity|]. cbn [map]. rewrite IH. reflexivity. }
      rewrite G. reflexivity. }
    rewrite F. reflexivity.
Qed.
