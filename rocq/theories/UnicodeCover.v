(** C110: how many keys of the table are recognised by themselves. *)
From Coq Require Import List NArith PeanoNat Lia Bool String.
From Verif Require Import PyStr UnicodeTable UnicodeModel UnicodeSpec UnicodeProofs2 UnicodeCases.
Import ListNotations.
Notation length := List.length.
Open Scope list_scope.

Lemma count : (let rk := ranked in length (filter (recognised_b rk) unicode_table)) = 2024.
Proof. vm_compute. reflexivity. Qed.
Local Opaque unicode_table.
Lemma once_nodup : forall l, once_b l = true -> NoDup l.
Proof.
  induction l as [|k l IH]; intros H; [constructor|]. cbn [once_b] in H. apply andb_prop in H as [H1 H2]. constructor; [|apply IH; exact H2].
  intros X. replace (existsb (str_eqb k) l) with true in H1; [discriminate|]. symmetry. apply existsb_exists. exists k. split; [exact X|apply str_eqb_spec; reflexivity].
Qed.
Lemma nodup_filter : forall (f : str * str -> bool) l, NoDup (map fst l) -> NoDup (map fst (filter f l)).
Proof.
  intros f l. induction l as [|e l IH]; intros H; [constructor|]. cbn [map] in H. apply NoDup_cons_iff in H as [H1 H2]. cbn [filter]. destruct (f e); [|apply IH; exact H2].
  cbn [map]. constructor; [|apply IH; exact H2]. intros X. apply H1. apply in_map_iff in X as (e' & E & X). apply filter_In in X as [X _]. rewrite <- E. apply in_map. exact X.
Qed.
Lemma covered : exists l, NoDup (map fst l) /\ length l = 2024 /\ forall k v, In (k, v) l -> In (k, v) unicode_table /\ recognised k v.
Proof.
  exists (filter (recognised_b ranked) unicode_table). split; [apply nodup_filter; apply once_nodup; exact keys_once|]. split; [exact count|].
  intros k v H. apply filter_In in H as [H1 H2]. split; [exact H1|]. apply recognised_ok; assumption.
Qed.
