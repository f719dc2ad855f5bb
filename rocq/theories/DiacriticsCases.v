(** C98: computed cases. *)
From Coq Require Import List NArith PeanoNat Lia Bool String.
From Verif Require Import PyStr DelimSpec CommandSpec CommandCases StyleSpec Json DiacriticsModel DiacriticsSpec DiacriticsProofs.
Import ListNotations. Notation length := List.length. Open Scope list_scope.
Section Cases.
Variable nfc : ch -> ch -> str.
Lemma macro_base : dia_handle nfc (lit "\'{\i}") = (Some (text_tok (nfc c_bs 769%N ++ lit "i")), 6) /\ dia_handle nfc (lit "\'\i") = (Some (text_tok (nfc c_bs 769%N)), 3).
Proof. split; [vm_compute; reflexivity|]. rewrite <- (app_nil_r (nfc c_bs 769%N)). vm_compute. reflexivity. Qed.
Lemma empty_base : dia_handle nfc (lit "\^{}x") = (Some (text_tok (nfc c_lb 770%N)), 3).
Proof. rewrite <- (app_nil_r (nfc c_lb 770%N)). vm_compute. reflexivity. Qed.
Lemma stacked : dia_handle nfc (lit "\'{\^e}") = (Some (text_tok (nfc c_bs 769%N ++ lit "^e")), 7).
Proof. vm_compute. reflexivity. Qed.
Lemma unclosed : dia_handle nfc (lit "\v{ab") = (Some (text_tok (nfc c_lb 780%N)), 3).
Proof. rewrite <- (app_nil_r (nfc c_lb 780%N)). vm_compute. reflexivity. Qed.
Lemma blank_base : dia_handle nfc (lit "\v{ }a") = (Some (text_tok []), 5).
Proof. vm_compute. reflexivity. Qed.
End Cases.
Lemma names_table : forall key a, accent_name key a <-> In (key, a) ACCENT_MAP.
Proof.
  intros key a. split.
  - intros [x b I|s b I]; unfold sign_accents, word_accents in I; cbn [In] in I; repeat (destruct I as [I|I]; [injection I as <- <-; vm_compute; tauto|]); destruct I.
  - intros I. unfold ACCENT_MAP in I. cbn [In] in I. repeat (destruct I as [I|I]; [injection I as <- <-; first [apply an_sign; vm_compute; tauto|match goal with |- accent_name (lit ?s) _ => apply (an_word s); vm_compute; tauto end]|]). destruct I.
Qed.
Lemma accent_ok : forall nfc key a text base rest, accent_name key a -> accented key text base rest -> dia_handle nfc text = (Some (text_tok (with_accent nfc base a)), length text - length rest).
Proof. intros nfc key a text base rest N. apply dia_exact. apply names_table. exact N. Qed.
Lemma other_ok : forall nfc text, (forall key a base rest, accent_name key a -> ~ accented key text base rest) -> dia_handle nfc text = (None, 0).
Proof. intros nfc text N. apply dia_none. intros key a base rest I. apply (N key a base rest). apply names_table. exact I. Qed.
Lemma sample_group : accented (lit "vec") (lit "\vec {ab} c") (lit "ab") (lit " c").
Proof. apply (ac_group (lit "vec") [c_sp] (lit "ab") (lit " c")); [reflexivity|apply closed_grp; reflexivity|discriminate]. Qed.
Lemma sample_char : accented (lit "vec") (lit "\vec3 c") (lit "3") (lit " c").
Proof. apply (ac_char (lit "vec") [] 51%N (lit " c")); [reflexivity|reflexivity|discriminate|]. intros k r _ _ _. split; [unfold letter; lia|discriminate]. Qed.
Lemma not_accent : forall key a base rest, accent_name key a -> ~ accented key (lit "\copyright 3") base rest.
Proof.
  intros key a base rest I A. apply names_table in I. pose proof (dia_exact (fun x y => [x; y]) _ _ _ _ _ I A) as H. vm_compute in H. discriminate.
Qed.
