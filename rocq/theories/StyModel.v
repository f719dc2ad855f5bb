(** Model of LatexStyParser.parse_file, latex2json/parser/sty_parser.py:257-284: the bookkeeping of
    parsed files and of the current directory.

    What LatexStyParser.parse does with one text (139-255) is any program that ends by returning
    tokens or by raising and may call parse_file any number of times on any paths (lines 85, 97, 110),
    each time depending on everything seen so far.  That the text loop itself ends is
    assumed here (see C38). *)
From Coq Require Import List NArith ZArith PeanoNat Lia Bool String.
From Verif Require Import PyStr ExtractModel.
Import ListNotations.
Notation length := List.length.
Notation concat := List.concat.
Open Scope list_scope.

Section Sty.
(** [S]: the registered definitions and conditionals; [tok]: tokens. *)
Variables S tok : Type.

(** The parser: parsed_files, current_file_dir, the rest; and the files whose text
    was parsed, latest first (an observation, not part of the code). *)
Record sty := { parsed : list str; cdir : option str; rest : S; started : list str }.

(** A run of [parse] on one text; the state carried is (current_file_dir, rest). *)
Inductive prog :=
| PRet (d : option str) (s : S) (ts : list tok)
| PRaise (d : option str) (s : S)
| PCall (path : str) (d : option str) (s : S) (k : option str -> S -> list tok -> prog).

(** posixpath.dirname of an absolute path *)
Definition dirname (p : str) : str :=
  match removelast (split_char c_slash p) with
  | [] => []
  | [h] => match h with [] => [c_slash] | _ => h end
  | l => join [c_slash] l
  end.

(** [text path s]: None when read_tex_file_content raises (269), otherwise the run of
    parse on the content, entered with current_file_dir = dirname(path) (157-158). *)
Variable text : str -> option str -> S -> option prog.
(** os.path.abspath *)
Variable absolute : str -> str.
(** token["is_sty"] = True (274-275) *)
Variable mark : tok -> tok.

(** sty_parser.py:257-284; None: out of fuel, i.e. not finished *)
Fixpoint parse_file (fuel : nat) (path : str) (st : sty) : option (sty * list tok) :=
  match fuel with
  | 0 => None
  | Datatypes.S fuel =>
      let p := absolute path in
      if existsb (str_eqb p) (parsed st) then Some (st, [])
      else match text p (Some (dirname p)) (rest st) with
           | None => Some (st, [])
           | Some pr =>
               match
                 (fix run (pr : prog) (ps tr : list str) : option (sty * option (list tok)) :=
                    match pr with
                    | PRet d s ts => Some ({| parsed := ps; cdir := d; rest := s; started := tr |}, Some ts)
                    | PRaise d s => Some ({| parsed := ps; cdir := d; rest := s; started := tr |}, None)
                    | PCall q d s k =>
                        match parse_file fuel q {| parsed := ps; cdir := d; rest := s; started := tr |} with
                        | None => None
                        | Some (st1, ts) => run (k (cdir st1) (rest st1) ts) (parsed st1) (started st1)
                        end
                    end) pr (p :: parsed st) (p :: started st)
               with
               | None => None
               | Some (st1, Some ts) => Some ({| parsed := parsed st1; cdir := cdir st; rest := rest st1; started := started st1 |}, map mark ts)
               | Some (st1, None) => Some (st1, [])
               end
           end
  end.
End Sty.
Arguments PRet {S tok}. Arguments PRaise {S tok}. Arguments PCall {S tok}.
Arguments parsed {S}. Arguments cdir {S}. Arguments rest {S}. Arguments started {S}. Arguments Build_sty {S}.
