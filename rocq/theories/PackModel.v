(** Model of packages/titlesec.py.  packages/overpic.py and packages/tikz_pgf.py are modelled in ParseCore.v
    ([overpic], [tikz]). *)
From Coq Require Import List NArith ZArith PeanoNat Bool String.
From Verif Require Import PyStr Regex TexUtilsModel.
Import ListNotations. Notation length := List.length. Notation concat := List.concat. Open Scope list_scope.

(** parser/patterns.py OPTIONAL_BRACE_PATTERN *)
Definition OPTIONAL_BRACE : re := ropt (rseq [is_ch c_lk; rstar (RChr (fun x => negb (N.eqb x c_rk))); is_ch c_rk]).
(** titlesec.py:24-43: PATTERNS and DELIMITERS, joined on the keys of PATTERNS (every key of PATTERNS is a key
    of DELIMITERS, so line 68 is not reached) *)
Definition TITLE_PATTERNS : list (re * str) :=
  [ (rseq [rstr (lit "\titleformat"); rstar rspace; is_ch c_lb], lit "{[{{{{");
    (rseq [rstr (lit "\titlespacing"); ropt (rstr (lit "*")); rstar rspace; is_ch c_lb], lit "{{{{");
    (rseq [rstr (lit "\titlelabel"); rstar rspace; is_ch c_lb], lit "{");
    (rseq [rstr (lit "\titlecontents"); rstar rspace; is_ch c_lb], lit "{[{{{{");
    (rseq [rstr (lit "\titleline"); rstar rspace; OPTIONAL_BRACE; rstar rspace; is_ch c_lb], lit "{") ].
(** titlesec.py:50-51 *)
Definition titlesec_can (t : str) : bool :=
  existsb (fun p => match re_match_at (fst p) t 0 with Some _ => true | None => false end) TITLE_PATTERNS.
(** titlesec.py:53-69: the first pattern that matches; the token is always None, the result is the position *)
Fixpoint titlesec_loop (ps : list (re * str)) (t : str) : nat :=
  match ps with
  | [] => 0
  | (p, delims) :: ps =>
      match re_match_at p t 0 with
      | Some m => let start := m_end m - 1 in start + snd (extract_delimited_args (skipn start t) delims)
      | None => titlesec_loop ps t
      end
  end.
Definition titlesec (t : str) : option unit * nat := (None, titlesec_loop TITLE_PATTERNS t).
