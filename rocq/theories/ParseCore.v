(** The main loop with concrete components: the macros of CommandModel.v and three of
    the handlers.  The other components are left out of this instance (the general
    theorems about ParseModel.v keep them arbitrary). *)
From Coq Require Import List NArith ZArith PeanoNat Lia Bool String.
From Verif Require Import PyStr Regex TexUtilsModel EnvModel Json BuilderModel TokensModel CommandModel ParseModel.
Import ListNotations. Notation length := List.length. Notation concat := List.concat. Open Scope list_scope.

Section Handlers.
Variable St : Type.
(** packages/overpic.py:14-43.  find_matching_env_block gives (-1, -1, "") for an
    environment that is not closed. *)
Definition P_overpic : re := rseq [rstr (lit "\begin"); rstar rspace; rstr (lit "{overpic}")].
Definition overpic : handler St := {|
  h_can := fun _ t => match re_match_at P_overpic t 0 with Some _ => true | None => false end;
  h_run := fun _ s t _ =>
    let '(e, content) := match find_matching_env_block t (lit "overpic") 0 with Some (_, e, c) => (Z.of_nat e, c) | None => ((-1)%Z, []) end in
    match extract_args content 1 1 with
    | (file :: _, _, _) => ret (s, TDict [(k_type, VStr (lit "includegraphics")); (k_content, VStr file)], e)
    | _ => ret (s, TNone, e)
    end;
  h_env := false |}.

(** packages/tikz_pgf.py:16-60 *)
Definition P_uselibrary : re := rseq [rstr (lit "\use"); ralt [rstr (lit "tikz"); rstr (lit "pgf"); rstr (lit "pgfplots")]; rstr (lit "library"); rstar rspace; is_ch c_lb].
Definition P_picture : re := rseq [rstr (lit "\begin"); rstar rspace; is_ch c_lb; RGrp 1 (ralt [rstr (lit "tikzpicture"); rstr (lit "picture"); rstr (lit "pgfpicture")]); is_ch c_rb].
Definition P_pgfplotsset : re := rseq [rstr (lit "\pgfplotsset"); rstar rspace; is_ch c_lb].
Definition skip_group (s : St) (t : str) (m : mobj) : run (St * tok_in * Z) :=
  let start := m_end m - 1 in ret (s, TNone, Z.of_nat (start + snd (extract_nested_content (skipn start t) c_lb c_rb))).
Definition tikz : handler St := {|
  h_can := fun _ t => existsb (fun p => match re_match_at p t 0 with Some _ => true | None => false end) [P_uselibrary; P_picture; P_pgfplotsset];
  h_run := fun _ s t _ =>
    match re_match_at P_uselibrary t 0 with
    | Some m => skip_group s t m
    | None =>
    match re_match_at P_picture t 0 with
    | Some m =>
        let name := grp t 1 m in
        let '(e, content) := match find_matching_env_block t name 0 with Some (_, e, c) => (Z.of_nat e, c) | None => ((-1)%Z, []) end in
        ret (s, TDict [(k_type, VStr (lit "diagram")); (k_name, VStr name); (k_content, VStr content)], e)
    | None =>
    match re_match_at P_pgfplotsset t 0 with
    | Some m => skip_group s t m
    | None => ret (s, TNone, 0%Z)
    end end end;
  h_env := false |}.

(** handlers/environment.py:14 and 308-338, 470-487, 566-577.  [isword] is \w.
    [is_env], [on_env] stand for ENVIRONMENT_PATTERN.match and what handle does with its
    matches, [is_new], [on_new] for \newenvironment. *)
Section Group.
Variable isword : ch -> bool.
Variable is_env is_new : St -> str -> bool.
Variable on_env on_new : parser St -> St -> str -> run (St * tok_in * Z).
Definition P_group : re := rseq [is_ch c_bs; RAlt (rstr (lit "begin")) (rstr (lit "b")); rstr (lit "group"); RBound isword].
Definition word_re (s : string) : re := RSeq (rstr (lit s)) (RBound isword).
Definition try_match_group (t : str) : tok_in * Z :=
  match re_match_at P_group t 0 with
  | None => (TNone, 0%Z)
  | Some m =>
      let '(b, e) := if contains (lit "bgroup") (m_group0 t m) then (word_re "\bgroup", word_re "\egroup") else (word_re "\begingroup", word_re "\endgroup") in
      match extract_nested_content_pattern t b e with
      | Some (Some (_, en, content)) =>
          (TDict [(k_type, VStr (lit "group")); (k_name, VStr (lit "group")); (k_content, VStr content)], Z.of_nat en)
      | _ => (TNone, 0%Z)
      end
  end.
Definition environments : handler St := {|
  h_can := fun s t => is_env s t || (match re_match_at P_group t 0 with Some _ => true | None => false end) || is_new s t;
  h_run := fun ps s t _ => if is_new s t then on_new ps s t else if is_env s t then on_env ps s t
                           else ret (s, fst (try_match_group t), snd (try_match_group t));
  h_env := true |}.
End Group.
End Handlers.

(** LatexParser restricted to macros and these handlers; RecursionError while
    expanding is [NoFuel]. *)
Section Core.
Variable isalnum : ch -> bool.
Variable ifs : str -> option (str * str).
Variable ew : str -> bool.
Definition core_expand (st : cstate) (t : str) : res str :=
  match expand_commands letter isalnum ew st t false with Some x => Ok x | None => Raise NoFuel end.
Definition core_user (st : cstate) (t : str) : res (option (str * Z)) :=
  Ok (option_map (fun p => (fst p, Z.of_nat (snd p))) (handle_command letter st t)).
Definition core_define (st : cstate) (t : str) : res (cstate * Z) :=
  match parser_define letter isalnum ifs ew st t with Some (st1, e) => Ok (st1, Z.of_nat e) | None => Raise NoFuel end.
Definition core_process (_ : parser cstate) (_ : bool) (tok : tok_in) (st : cstate) (tokens : list dict) : run (cstate * list dict) :=
  match add_token tok tokens false with Ok tk => ret (st, tk) | Raise e => Some (Raise e) end.
Definition core_label (st : cstate) (l : str) (tokens : list dict) : res (cstate * list dict) := Ok (st, tokens).
Definition none_of (_ : cstate) (_ : str) : res (option (str * Z)) := Ok None.
Definition core_handlers : list (handler cstate) :=
  [overpic cstate; tikz cstate; environments cstate letter (fun _ _ => false) (fun _ _ => false) (fun _ s _ => ret (s, TNone, 0%Z)) (fun _ s _ => ret (s, TNone, 0%Z))].
Definition core_parse (fuel : nat) (st : cstate) (doc : str) : run (cstate * list dict) :=
  parse cstate core_expand core_user core_define none_of none_of core_handlers core_process core_label fuel default_opts st doc.
End Core.
