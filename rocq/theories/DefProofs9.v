(** C104, C105: \def, with the name written directly, with \csname or in \@namedef. *)
From Coq Require Import List NArith ZArith PeanoNat Lia Bool String.
From Verif Require CommandModel ContentProofs2 FormatProofs3 FormatProofs5 CommandProofs CommandProofs2 CommandProofs3 CommandProofs4 CommandProofs6 CommandProofs7 CommandProofs8.
From Verif Require Import PyStr Regex RegexLemmas RegexHead RegexAbs DelimSpec DelimProofs DelimFinal TexUtilsModel EnvModel EnvSpec EnvProofs StyleModel CommandSpec DefModel DefSpec DefProofs DefProofs3 DefProofs4 DefProofs8.
Import ListNotations. Notation length := List.length. Notation concat := List.concat. Open Scope list_scope.
Notation fm := RegexHead.first_match.
Notation first_match := DefModel.first_match.
Notation P_def := CommandModel.P_def.
Notation P_hash := CommandModel.P_hash.
Notation hashes := CommandProofs7.hashes.
Notation hash := CommandProofs7.hash.

Lemma arg_parts_ok : forall l pre t, t = pre ++ hashes l -> arg_parts t (length pre) (iter_at P_hash t (length pre)) = concat (repeat ARG_PART (length l)) /\ length (iter_at P_hash t (length pre)) = length l.
Proof.
  induction l as [|n l IH]; intros pre t Et.
  - cbn [CommandProofs7.hashes map concat] in Et. rewrite app_nil_r in Et. rewrite iter_at_end; [|exact CommandProofs7.hash_min|subst; lia]. cbn [arg_parts]. rewrite Et, skipn_all. split; reflexivity.
  - assert (Eh : hashes (n :: l) = hash n ++ hashes l) by reflexivity. rewrite Eh in Et.
    assert (E : skipn (length pre) t = hash n ++ hashes l) by (rewrite Et, skipn_app, skipn_all, Nat.sub_diag; reflexivity).
    assert (Hh : (match hashes l with x :: _ => isdigit x | [] => false end) = false) by (destruct l; reflexivity).
    rewrite iter_at_step; [|exact CommandProofs7.hash_min|rewrite Et, !app_length; unfold CommandProofs7.hash; cbn; lia]. rewrite (CommandProofs7.hash_match t _ n _ E Hh). cbn [m_end].
    replace (length pre + length (hash n)) with (length (pre ++ hash n)) by (rewrite app_length; lia).
    destruct (IH (pre ++ hash n) t) as [I1 I2]; [rewrite Et, <- app_assoc; reflexivity|]. cbn [arg_parts m_start m_end length]. rewrite I1, I2. split; [|reflexivity].
    unfold slice. rewrite Nat.sub_diag. reflexivity.
Qed.
Lemma word_command : forall name, word name -> command_word name.
Proof. intros name W. split; [exact (CommandProofs.word_nonempty _ W)|exact (proj1 W)]. Qed.
Lemma cw_forallb : forall name, command_word name -> forallb CommandModel.name_ch name = true.
Proof. intros name [_ H]. apply forallb_forall. intros x Hx. apply CommandProofs.name_ch_spec. rewrite Forall_forall in H. auto. Qed.
Lemma cw_last : forall name, command_word name -> exists x, last_ch name = Some x /\ CommandModel.name_ch x = true.
Proof.
  intros name W. destruct (exists_last (proj1 W)) as (a & x & ->). exists x. unfold last_ch. rewrite rev_app_distr. split; [reflexivity|]. apply cw_forallb in W. rewrite forallb_app in W. apply andb_prop in W as [_ W]. cbn [forallb] in W. apply andb_prop in W as [W _]. exact W.
Qed.
Lemma hash_absent : forall name, command_word name -> forall (pre suf : str), name = pre ++ suf -> forall r c, suf <> [] -> rm P_hash (name ++ r) (length pre) c = [].
Proof.
  intros name W pre suf E r c Hs. unfold P_hash. apply rm_seq_none, rm_chr_none. rewrite E, <- app_assoc, skipn_app, skipn_all, Nat.sub_diag. cbn [skipn List.app]. destruct suf as [|x suf]; [congruence|]. cbn [List.app].
  apply cw_forallb in W. rewrite E, forallb_app in W. apply andb_prop in W as [_ W]. cbn [forallb] in W. apply andb_prop in W as [W _]. apply CommandProofs6.name_ch_nospace in W. rewrite N.eqb_sym. apply W.
Qed.
Lemma escape_word : forall name, command_word name -> escape name = name.
Proof.
  intros name W. apply cw_forallb in W. induction name as [|x name IH]; [reflexivity|]. cbn [forallb] in W. apply andb_prop in W as [Wx W].
  change (escape (x :: name)) with ((if special x then [c_bs; x] else [x]) ++ escape name). rewrite (IH W). replace (special x) with false; [reflexivity|]. symmetry. apply CommandProofs.name_ch_spec in Wx. unfold word_char, is_letter in Wx.
  destruct (special x) eqn:S; [|reflexivity]. exfalso. unfold special in S. cbn in S. repeat (apply Bool.orb_true_iff in S; destruct S as [S|S]; [apply N.eqb_eq in S; lia|]). discriminate S.
Qed.
Lemma no_hash : forall name k, command_word name -> (k = 0 -> re_search P_hash (name ++ param_text k) = None) /\
  (k <> 0 -> exists m, re_search P_hash (name ++ param_text k) = Some m /\ m_start m = length name).
Proof.
  intros name k W. rewrite CommandProofs7.hashes_param. set (t := name ++ hashes (seq 1 k)).
  assert (No : forall i, i < length name -> re_match_at P_hash t i = None).
  { intros i Hi. unfold re_match_at. pose proof (hash_absent name W (firstn i name) (skipn i name) (eq_sym (firstn_skipn i name)) (hashes (seq 1 k)) []) as H.
    rewrite firstn_length_le in H by lia. unfold t; rewrite H; [reflexivity|]. intros Q. apply (f_equal (@length ch)) in Q. rewrite skipn_length in Q. cbn in Q. lia. }
  split.
  - intros ->. unfold t in *. cbn [seq CommandProofs7.hashes map concat]. rewrite app_nil_r in *. apply re_search_none. intros i j Hi. apply (proj1 (re_match_at_none P_hash name i (proj2 Hi))). destruct (Nat.eq_dec i (length name)) as [->|Ne]; [|apply No; lia].
    unfold re_match_at, CommandModel.P_hash. rewrite rm_seq_none; [reflexivity|]. apply rm_chr_none. rewrite skipn_all. reflexivity.
  - intros Nk. destruct k as [|k]; [congruence|]. assert (E : skipn (length name) t = hash 1 ++ hashes (seq 2 k)) by (unfold t; rewrite skipn_app, skipn_all, Nat.sub_diag; reflexivity).
    assert (Hh : (match hashes (seq 2 k) with x :: _ => isdigit x | [] => false end) = false) by (destruct k; reflexivity).
    exists {| m_start := length name; m_end := length name + length (hash 1); m_caps := [(1, (S (length name), length name + length (hash 1)))] |}. split; [|reflexivity]. unfold re_search. apply (search_first P_hash t 0 (length name)); [lia|unfold t; rewrite app_length; lia|intros i _ Hi; apply No; exact Hi|]. apply (CommandProofs7.hash_match t _ 1 _ E Hh).
Qed.
Lemma letter_same : forall x, CommandModel.letter x = true -> StyleModel.is_letter x = true.
Proof. intros x H. apply CommandProofs.letter_spec in H. unfold CommandSpec.is_letter in H. unfold StyleModel.is_letter. apply Bool.orb_true_iff. rewrite !Bool.andb_true_iff, !N.leb_le. lia. Qed.
Section Any.
Variables u ualpha ualnum : ch -> bool.
Local Notation handle := (handle u ualpha ualnum).
Lemma def_parts_ok : forall name k, command_word name -> def_parts ualpha (name ++ param_text k) = Ok (name ++ behind_name k, k).
Proof.
  intros name k W. destruct (no_hash name k W) as (Z0 & Zk). unfold def_parts. destruct k as [|k].
  - rewrite (Z0 eq_refl). unfold param_text. cbn [seq map concat]. rewrite app_nil_r, (escape_word _ W). reflexivity.
  - destruct (Zk ltac:(lia)) as (m & -> & Em). rewrite Em. rewrite (firstn_app_exact name), (skipn_app_exact name) by reflexivity.
    destruct (cw_last name W) as (x & El' & Lx). rewrite El'. assert (Q : isalpha ualpha x || N.eqb x 64 = true) by (unfold isalpha; unfold CommandModel.name_ch in Lx; apply Bool.orb_true_iff in Lx as [Lx|Lx]; [rewrite (letter_same _ Lx)|rewrite Lx, Bool.orb_true_r]; reflexivity). rewrite Q.
    rewrite CommandProofs7.hashes_param. destruct (arg_parts_ok (seq 1 (S k)) [] (hashes (seq 1 (S k))) eq_refl) as (A1 & A2). cbn [List.length] in A1, A2. change (re_finditer P_hash (hashes (seq 1 (S k)))) with (iter_at P_hash (hashes (seq 1 (S k))) 0).
    rewrite A1, A2, seq_length, (escape_word _ W). unfold behind_name. reflexivity.
Qed.
Ltac head_steps := repeat (eapply fm_seq; [eexists; reflexivity|]).
(** the text of a definition *)
Definition def_head (keyword : string) (gap name gap2 : str) (k : nat) : str := lit keyword ++ gap ++ [c_bs] ++ name ++ gap2 ++ param_text k.
Lemma def_item_blank : forall ws l (t : str) i r, blank ws -> skipn i t = ws ++ hashes l ++ c_lb :: r -> CommandProofs7.star_steps CommandProofs8.def_item t i (i + length ws + length (hashes l)).
Proof.
  induction ws as [|x ws IH]; intros l t i r B E.
  - cbn [List.length]. rewrite Nat.add_0_r. apply (CommandProofs8.def_items l t i r E).
  - assert (Bx : isspace x = true /\ blank ws) by (unfold blank in B |- *; cbn [forallb] in B; apply andb_prop in B; exact B). destruct Bx as (Bx & B').
    apply CommandProofs7.ss_step with (j := i + 1); [lia| |].
    + intros c. unfold CommandProofs8.def_item. cbn [List.app] in E. apply fm_alt_right; [apply rm_seq_none, rm_chr_none; rewrite E; destruct (N.eqb_spec c_hash x) as [Q|_]; [subst x; discriminate Bx|reflexivity]|].
      replace (i + 1) with (S i) by lia. eapply fm_chr; [exact E|]. cbn [in_str existsb]; unfold in_str; cbn [existsb]; rewrite Bool.orb_false_r. destruct (N.eqb_spec x c_lb) as [Q|_]; [subst x; discriminate Bx|reflexivity].
    + cbn [List.length]. replace (i + S (length ws)) with (i + 1 + length ws) by lia. apply (IH l t (i + 1) r B'). replace (i + 1) with (S i) by lia. eapply skipn_more1. exact E.
Qed.
Lemma def_match : forall keyword gap name gap2 k r, In keyword def_words -> blank gap -> blank gap2 -> command_word name ->
  let t := def_head keyword gap name gap2 k ++ c_lb :: r in
  let a := length (lit keyword ++ gap ++ [c_bs]) in let b := a + length name in let e := length (def_head keyword gap name gap2 k) in
  re_match_at P_def t 0 = Some {| m_start := 0; m_end := S e; m_caps := [(2, (b, S e)); (3, (b, e)); (1, (a, b))] |}.
Proof.
  intros keyword gap name gap2 k r I B B2 W t a b e. apply fm_match. unfold CommandModel.P_def. set (H := hashes (seq 1 k)).
  assert (Et : t = lit keyword ++ gap ++ [c_bs] ++ name ++ gap2 ++ H ++ c_lb :: r) by (unfold t, def_head, H; rewrite CommandProofs7.hashes_param, <- !app_assoc; reflexivity).
  assert (G : forall n, n = length (lit keyword) -> fm (rseq [rstar rspace; is_ch c_bs; RGrp 1 (rplus (RChr (fun x => negb (isspace x) && negb (N.eqb x c_lb) && negb (N.eqb x c_hash))));
        RGrp 2 (rseq [RGrp 3 (rstar (RAlt (RSeq (is_ch c_hash) (rplus rdigit)) (rncls [c_lb]))); rstar rspace; is_ch c_lb])]) t n [] (S e) [(2, (b, S e)); (3, (b, e)); (1, (a, b))]).
  { intros n ->. assert (E0 : skipn (length (lit keyword)) t = gap ++ [c_bs] ++ name ++ gap2 ++ H ++ c_lb :: r) by (rewrite Et; apply skipn_app_exact; reflexivity). cbn [rseq].
    eapply fm_seq; [apply (fm_star isspace t _ [] gap _ E0 B); reflexivity|]. apply skipn_more in E0.
    eapply fm_seq; [apply (fm_is_ch c_bs t _ [] _ E0)|]. apply skipn_more1 in E0. replace (S (length (lit keyword) + length gap)) with a in * by (unfold a; rewrite !app_length; cbn [List.length]; lia).
    eapply fm_seq. { apply fm_grp. apply (fm_plus _ t a [] name _ E0 (proj1 W)).
      - apply forallb_forall. intros x Hx. apply cw_forallb in W. rewrite forallb_forall in W. destruct (CommandProofs6.name_ch_nospace x (W x Hx)) as (-> & -> & _ & Hh). rewrite Hh. reflexivity.
      - destruct gap2 as [|x g2]; [unfold H; destruct k as [|k]; reflexivity|]. unfold blank in B2. cbn [forallb] in B2. apply andb_prop in B2 as [Bx _]. cbn [List.app]. rewrite Bx. reflexivity. }
    apply skipn_more in E0. fold b in E0 |- *. apply fm_grp.
    assert (Ee : e = b + length gap2 + length H) by (unfold e, b, a, def_head; rewrite CommandProofs7.hashes_param; fold H; rewrite !app_length; lia).
    eapply fm_seq; [apply fm_grp; apply (CommandProofs7.fm_star_steps CommandProofs8.def_item t b e); rewrite Ee; apply (def_item_blank gap2 (seq 1 k) t b r B2 E0)|]. apply skipn_more in E0. apply skipn_more in E0. rewrite <- Ee in E0.
    eapply fm_seq; [apply (fm_star isspace t e _ [] _ E0); reflexivity|]. change (length (@nil ch)) with 0. rewrite Nat.add_0_r. apply (fm_is_ch c_lb t e _ _ E0). }
  clearbody e b a. cbn [rseq] in G |- *. revert G. rewrite Et. intros G. unfold def_words in I. cbn [In] in I.
  repeat (destruct I as [<-|I]; [do 4 (eapply fm_seq; [eexists; reflexivity|]); apply G; reflexivity|]). destruct I.
Qed.
Lemma contains_cons : forall p x s, contains p (x :: s) = startswith (x :: s) p || contains p s.
Proof. intros p x s. unfold contains. cbn [find_sub]. destruct (startswith (x :: s) p); [reflexivity|]. destruct (find_sub p s); reflexivity. Qed.
Lemma edef_ok : forall keyword gap, In keyword def_words -> blank gap -> contains (lit "\edef") (lit keyword ++ gap ++ [c_bs]) = expanding keyword.
Proof.
  intros keyword gap I B. assert (G : contains (lit "\edef") (gap ++ [c_bs]) = false).
  { induction gap as [|x gap IH]; [reflexivity|]. unfold blank in B. cbn [forallb] in B. apply andb_prop in B as [Bx B]. cbn [List.app]. rewrite contains_cons, (IH B), Bool.orb_false_r. unfold startswith. cbn [lit]. destruct (startswith (x :: gap ++ [c_bs]) (lit "\edef")) eqn:S; [|exact S]. apply startswith_spec in S as (q & S). injection S as Sx _. subst x. discriminate Bx. }
  revert G. generalize (gap ++ [c_bs]). intros tail G. set (E := lit "\edef") in *. unfold def_words in I. cbn [In] in I.
  repeat (destruct I as [<-|I]; [match goal with |- context [lit ?k ++ tail] => let l := eval vm_compute in (lit k) in change (lit k) with l end; cbn [List.app]; rewrite ?contains_cons, G; reflexivity|]). destruct I.
Qed.
Lemma blank_strip_l : forall ws s, blank ws -> (forall x r, s = x :: r -> isspace x = false) -> (forall x, In x s -> isspace x = false) -> strip (ws ++ s) = s.
Proof.
  intros ws s B _ N. destruct s as [|x s].
  - rewrite app_nil_r. unfold strip. replace (lstrip ws) with (@nil ch); [reflexivity|]. symmetry. induction ws as [|y ws IH]; [reflexivity|]. unfold blank in B. cbn [forallb] in B. apply andb_prop in B as [By B]. cbn [lstrip]. rewrite By. apply IH. exact B.
  - unfold strip. assert (El : lstrip (ws ++ x :: s) = x :: s).
    { induction ws as [|y ws IH]; [apply lstrip_id; apply N; left; reflexivity|]. unfold blank in B. cbn [forallb] in B. apply andb_prop in B as [By B]. cbn [List.app lstrip]. rewrite By. apply IH. exact B. }
    rewrite El. pose proof (CommandProofs8.strip_nospace (x :: s) N) as S. unfold strip in S. rewrite lstrip_id in S by (apply N; left; reflexivity). exact S.
Qed.
Lemma def_token : forall keyword gap name gap2 k body rest, In keyword def_words -> blank gap -> blank gap2 -> command_word name -> good_body body ->
  let t := def_head keyword gap name gap2 k ++ braced body ++ rest in
  exists m, re_match_at P_def t 0 = Some m /\ handle_def ualpha t m = Ok (Some (DDef name body k (use_text name k) (expanding keyword)), Z.of_nat (length (def_head keyword gap name gap2 k ++ braced body))).
Proof.
  intros keyword gap name gap2 k body rest I B B2 W Gb t. pose proof (def_match keyword gap name gap2 k (body ++ [c_rb] ++ rest) I B B2 W) as M. cbv zeta in M.
  assert (Et : t = def_head keyword gap name gap2 k ++ c_lb :: body ++ [c_rb] ++ rest) by (unfold t, braced; rewrite <- !app_assoc; reflexivity). rewrite <- Et in M. eexists. split; [exact M|]. unfold handle_def. cbn [m_end].
  set (pre := def_head keyword gap name gap2 k) in *.
  rewrite (ContentProofs2.nested_arg t pre body rest Gb) by exact Et.
  set (a := length (lit keyword ++ gap ++ [c_bs])). unfold m_span. cbn [m_caps cap_get Nat.eqb].
  set (m := {| m_start := 0; m_end := S (length pre); m_caps := [(2, (a + length name, S (length pre))); (3, (a + length name, length pre)); (1, (a, a + length name))] |}).
  assert (G1 : grp t 1 m = name).
  { eapply (grp_at t (lit keyword ++ gap ++ [c_bs]) name); [|reflexivity|reflexivity|reflexivity]. rewrite Et. unfold pre, def_head. rewrite <- !app_assoc. reflexivity. }
  assert (G3 : grp t 3 m = gap2 ++ param_text k).
  { eapply (grp_at t (lit keyword ++ gap ++ [c_bs] ++ name) (gap2 ++ param_text k)); [|reflexivity| |].
    - rewrite Et. unfold pre, def_head. rewrite <- !app_assoc. reflexivity.
    - unfold a. rewrite !app_length. lia.
    - unfold pre, def_head. rewrite !app_length. lia. }
  assert (Go : grp_or t 1 2 m = name).
  { unfold grp_or. rewrite G1. pose proof (proj1 W). destruct name; [congruence|reflexivity]. }
  fold m. rewrite Go, G3. assert (U : unslash name = name).
  { destruct name as [|x nm]; [reflexivity|]. cbn [unslash]. apply cw_forallb in W. cbn [forallb] in W. apply andb_prop in W as [W _]. apply CommandProofs6.name_ch_nospace in W as (_ & _ & Q & _). rewrite Q. reflexivity. }
  rewrite U. replace (strip (gap2 ++ param_text k)) with (param_text k).
  2:{ symmetry. rewrite CommandProofs7.hashes_param. apply blank_strip_l; [exact B2| |apply CommandProofs8.hashes_nospace]. intros x r E. apply (CommandProofs8.hashes_nospace (seq 1 k)). rewrite E. left. reflexivity. }
  rewrite (def_parts_ok name k W). assert (Ee : contains (lit "\edef") (firstn a t) = expanding keyword).
  { rewrite <- (edef_ok keyword gap I B). f_equal. rewrite Et. unfold pre, def_head. replace ((lit keyword ++ gap ++ [c_bs] ++ name ++ gap2 ++ param_text k) ++ c_lb :: body ++ [c_rb] ++ rest) with ((lit keyword ++ gap ++ [c_bs]) ++ (name ++ gap2 ++ param_text k) ++ c_lb :: body ++ [c_rb] ++ rest) by (rewrite <- !app_assoc; reflexivity). apply firstn_app_exact. reflexivity. }
  rewrite Ee. unfold use_text. do 2 f_equal. unfold braced. rewrite !app_length. cbn [List.length]. lia.
Qed.
End Any.
