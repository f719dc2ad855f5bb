(** Model of latex2json/parser/packages/boxes.py (BoxHandler), of
    flatten_all_to_string (utils/tex_utils.py:359-373) and of the sharing of the
    class-level dictionaries saved_boxes / numbered_boxes between instances. *)
From Coq Require Import List NArith PeanoNat Bool String.
From Verif Require Import PyStr Regex Json TexUtilsModel TextModel BuilderModel ContentModel CommandModel.
Import ListNotations. Notation length := List.length. Notation concat := List.concat. Open Scope list_scope.

(** boxes.py:15-30.  The two keys that are patterns ([[fhv]box], [hbox to ..]) never
    equal a matched name, so the lookup of boxes.py:107 misses them; they are
    left out of the table. *)
Definition BOX_DELIMITERS : list (str * str) :=
  [(lit "parbox", lit "[[[{{"); (lit "makebox", lit "[[{"); (lit "framebox", lit "[[{"); (lit "raisebox", lit "{[[{");
   (lit "colorbox", lit "{{"); (lit "fcolorbox", lit "{{{"); (lit "scalebox", lit "{{"); (lit "mbox", lit "{");
   (lit "pbox", lit "{{"); (lit "resizebox", lit "{{{"); (lit "rotatebox", lit "{{"); (lit "adjustbox", lit "{{")].
Definition nm (s : string) : re := rstr (lit s).
(** boxes.py:32-34 (re.VERBOSE changes nothing: no blank and no number sign in the pattern) *)
Definition BOX_NAMES : re :=
  ralt [RSeq (rcls (lit "fhv")) (nm "box"); nm "parbox"; nm "makebox"; nm "framebox"; nm "raisebox"; nm "colorbox"; nm "fcolorbox";
        nm "scalebox"; nm "mbox"; rseq [nm "hbox"; rplus rspace; nm "to"; rstar rspace; rplus (not_ch c_lb)];
        nm "pbox"; nm "resizebox"; nm "rotatebox"; nm "adjustbox"].
Definition BOX_PATTERN : re := RSeq (is_ch c_bs) (RSeq (RGrp 1 BOX_NAMES) (RSeq (rstar rspace) (rcls [c_lk; c_lb]))).
(** boxes.py:37-41 with patterns.py:6 *)
Definition FANCYHEAD_PATTERN : re :=
  rseq [is_ch c_bs; RGrp 1 (ralt [nm "fancyhead"; nm "fancyheadoffset"; nm "rhead"; nm "chead"; nm "lhead"]); rstar rspace;
        ropt (rseq [is_ch c_lk; rstar (not_ch c_rk); is_ch c_rk]); rstar rspace; is_ch c_lb].
(** patterns.py:5, 16  command_with_opt_brace_pattern *)
Definition command_or_brace (g : nat) : re :=
  RAlt (rseq [is_ch c_lb; RGrp g (rplus (not_ch c_rb)); is_ch c_rb]) (command_pattern (S g)).
(** boxes.py:44-48 *)
Definition SAVED_BOX_PATTERN : re :=
  RSeq (is_ch c_bs) (RSeq (RGrp 1 (ralt [nm "usebox"; nm "sbox"; nm "savebox"; nm "newsavebox"; nm "newbox"]))
    (RSeq (rstar rspace) (RGrp 2 (command_or_brace 3)))).
(** boxes.py:51-54 *)
Definition SETBOX_PATTERN : re :=
  RSeq (nm "\setbox") (RSeq (rstar rspace) (RSeq (RGrp 1 (RAlt (rplus rdigit) (command_or_brace 2)))
    (RSeq (rstar rspace) (RSeq (is_ch 61%N) (rstar rspace))))).

(** [v[: v.find(x)]] for a character that occurs *)
Fixpoint up_to (x : ch) (v : str) : str := match v with [] => [] | y :: r => if N.eqb y x then [] else y :: up_to x r end.
(** boxes.py:57-66 *)
Definition parse_varname (v : str) : str :=
  let v := match v with
           | x :: _ => if N.eqb x c_lb then match extract_nested_content v c_lb c_rb with (Some (y :: r), _) => strip (y :: r) | _ => v end else v
           | [] => v
           end in
  let v := match v with x :: r => if N.eqb x c_bs then r else v | [] => v end in
  if existsb (N.eqb c_lb) v then strip (up_to c_lb v) else v.

(** tex_utils.py:363-371, flatten_token, and the recursive calls of 359-373 on lists.
    (Which exception is raised first when several apply is not modelled.) *)
Fixpoint flatten_token (v : val) : res str :=
  match v with
  | VStr s => Ok s
  | VList l =>
      do parts <- (fix go l := match l with [] => Ok [] | x :: r => do a <- flatten_token x; do b <- go r; Ok (a :: b) end) l;
      Ok (join [c_sp] parts)
  | VDict d =>
      (fix find d := match d with
                     | [] => Raise KeyError
                     | (k, x) :: r => if str_eqb k k_content
                                      then match x with VStr _ | VList _ => flatten_token x | _ => Raise TypeError end
                                      else find r
                     end) d
  | _ => Raise TypeError
  end.
(** tex_utils.py:359-373; iterating over a dict yields its keys *)
Definition flatten_all_to_string (v : val) : res str :=
  match v with
  | VStr s => Ok s
  | VList _ => flatten_token v
  | VDict d => Ok (join [c_sp] (map fst d))
  | _ => Raise TypeError
  end.

(** boxes.py:69-70: saved_boxes and numbered_boxes *)
Record boxes := { saved : dict; numbered : list (nat * val) }.
Definition no_boxes : boxes := {| saved := []; numbered := [] |}.
Definition save (x : str) (v : val) (st : boxes) : boxes := {| saved := set x v (saved st); numbered := numbered st |}.
Definition save_number (n : nat) (v : val) (st : boxes) : boxes := {| saved := saved st; numbered := (n, v) :: numbered st |}.

Section Handler.
(** process_content_fn: it may use and change the boxes (the parser calls this
    handler again for nested commands) and it may raise.  No function at all
    is [fun st s => (st, Ok (VStr s))]. *)
Variable process : boxes -> str -> boxes * res val.

Definition text_token (s : str) : val := VDict [(k_type, VStr (lit "text")); (k_content, VStr s)].
(** boxes.py:130-136 *)
Definition box_token (v : val) : res val :=
  match v with
  | VStr s => Ok (text_token s)
  | VDict d => if is_str (get k_type d) "group" then getitem k_content d else Ok v
  | _ => Ok v
  end.
(** boxes.py:107 *)
Definition box_delimiters (name : str) (start_char : ch) : str :=
  match find (fun kv => str_eqb (fst kv) name) BOX_DELIMITERS with Some (_, d) => d | None => [start_char] end.

(** boxes.py:97-136, the part of handle after the two saved-box patterns.  The
    result [VNone] is Python's None. *)
Definition handle_box (st : boxes) (content : str) : boxes * res (val * nat) :=
  match match re_match_at BOX_PATTERN content 0 with Some m => Some m | None => re_match_at FANCYHEAD_PATTERN content 0 end with
  | None => (st, Ok (VNone, 0))
  | Some m =>
      let s := m_group0 content m in
      let start_pos := m_end m - 1 in
      let delims := box_delimiters (grp content 1 m) (last s 0%N) in
      let '(args, e) := extract_delimited_args (skipn start_pos content) delims in
      let end_pos := e + start_pos in
      match (if length args =? length delims then last args None else None) with
      | None | Some [] => (st, Ok (VNone, end_pos))
      | Some b =>
          let '(st1, r) := process st b in
          (st1, do v <- r;
                do v <- (if startswith s (lit "\mbox") then do f <- flatten_all_to_string v; Ok (VStr (strip_latex_newlines f)) else Ok v);
                do t <- box_token v;
                Ok (t, end_pos))
      end
  end.

(** boxes.py:160-169 and 216-224 *)
Definition stored (v : val) : val := match v with VStr s => text_token s | _ => v end.

(** boxes.py:138-176 *)
Definition handle_saved (st : boxes) (content : str) (m : mobj) : boxes * res (val * nat) :=
  let command := grp content 1 m in
  let name := parse_varname (grp content 2 m) in
  if startswith command (lit "new") then (save name VNone st, Ok (VNone, m_end m))
  else if str_eqb command (lit "sbox") || str_eqb command (lit "savebox") then
    let start_pos := m_end m in
    match extract_delimited_args (skipn start_pos content) [c_lb] with
    | (Some b :: _, e) =>
        let '(st1, r) := process st b in
        match r with
        | Raise ex => (st1, Raise ex)
        | Ok v => (save name (stored v) st1, Ok (VNone, start_pos + e))
        end
    | _ => (st, Ok (VNone, start_pos))
    end
  else (st, Ok (get name (saved st), m_end m)).

(** boxes.py:178-226.  [self.handle(remaining_content)] on line 205 is reached only
    when BOX_PATTERN matches, and then it is [handle_box] (BoxProofs.box_only). *)
Definition handle_setbox (st : boxes) (content : str) (m : mobj) : boxes * res (val * nat) :=
  let name := strip (grp content 1 m) in
  let store := match name with
               | x :: _ => if forallb isdigit name then fun v st => save_number (match int_of_str name with Some n => n | None => 0 end) v st else save (parse_varname name)
               | [] => save (parse_varname name)
               end in
  let start_pos := m_end m + nlead (skipn (m_end m) content) in
  let remaining := skipn start_pos content in
  let direct (st : boxes) :=
    match extract_delimited_args remaining [c_lb] with
    | (Some b :: _, e) =>
        let '(st1, r) := process st b in
        match r with
        | Raise ex => (st1, Raise ex)
        | Ok v => (store (stored v) st1, Ok (VNone, start_pos + e))
        end
    | _ => (st, Ok (VNone, start_pos))
    end in
  match re_match_at BOX_PATTERN remaining 0 with
  | Some _ =>
      match handle_box st remaining with
      | (st1, Raise ex) => (st1, Raise ex)
      | (st1, Ok (v, e)) => if truthy v then (store v st1, Ok (VNone, start_pos + e)) else direct st1
      end
  | None => direct st
  end.

(** boxes.py:84-136 *)
Definition handle (st : boxes) (content : str) : boxes * res (val * nat) :=
  match re_match_at SETBOX_PATTERN content 0 with
  | Some m => handle_setbox st content m
  | None =>
      match re_match_at SAVED_BOX_PATTERN content 0 with
      | Some m => handle_saved st content m
      | None => handle_box st content
      end
  end.
End Handler.

(* ------------------------------------------------------------------ *)
(** The class object and its instances.  [self.saved_boxes] is the dictionary of
    the class until [clear] (boxes.py:80-82) gives the instance its own. *)
Record world := { class_boxes : boxes; own : list (option boxes) }.
Definition fresh : world := {| class_boxes := no_boxes; own := [] |}.
Definition seen_by (w : world) (i : nat) : boxes :=
  match nth i (own w) None with Some b => b | None => class_boxes w end.
Fixpoint update {A} (i : nat) (x : A) (l : list A) : list A :=
  match l, i with [], _ => [] | _ :: r, O => x :: r | y :: r, S j => y :: update j x r end.
Definition put (w : world) (i : nat) (b : boxes) : world :=
  match nth i (own w) None with
  | Some _ => {| class_boxes := class_boxes w; own := update i (Some b) (own w) |}
  | None => {| class_boxes := b; own := own w |}
  end.
(** One call on the objects: BoxHandler(), clear() and handle(text) of instance [i]. *)
Inductive call := Create | Clear (i : nat) | Handle (i : nat) (text : str).
Definition do_call (process : boxes -> str -> boxes * res val) (w : world) (c : call) : world * option (res (val * nat)) :=
  match c with
  | Create => ({| class_boxes := class_boxes w; own := own w ++ [None] |}, None)
  | Clear i => ({| class_boxes := class_boxes w; own := update i (Some no_boxes) (own w) |}, None)
  | Handle i text => let '(b, r) := handle process (seen_by w i) text in (put w i b, Some r)
  end.
Fixpoint do_calls (process : boxes -> str -> boxes * res val) (w : world) (cs : list call) : world * list (option (res (val * nat))) :=
  match cs with
  | [] => (w, [])
  | c :: r => let '(w1, o) := do_call process w c in let '(w2, os) := do_calls process w1 r in (w2, o :: os)
  end.
(** Successive texts given to one handler. *)
Fixpoint handle_all (process : boxes -> str -> boxes * res val) (st : boxes) (texts : list str) : boxes * list (res (val * nat)) :=
  match texts with
  | [] => (st, [])
  | t :: r => let '(st1, o) := handle process st t in let '(st2, os) := handle_all process st1 r in (st2, o :: os)
  end.
