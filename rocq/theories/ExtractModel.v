(** Model of latex2json/tex_file_extractor.py: the choice of the main TeX file, the
    filtering of archive members and their extraction.

    The parts of the Python library that decide the outcome are modelled too:
    posixpath.isabs/join/normpath/abspath, tarfile.TarFile.extract with the default filter
    of Python 3.8 - 3.13 (fully trusted), zipfile.ZipFile.extract, and a file
    system with symbolic links. *)
From Coq Require Import List NArith ZArith PeanoNat Lia Bool String.
From Verif Require Import PyStr TexUtilsModel TokensModel.
Import ListNotations.
Notation length := List.length.
Notation concat := List.concat.
Open Scope list_scope.

Definition c_slash : ch := 47%N.
Definition c_dot : ch := 46%N.
Definition dot : str := [c_dot].
Definition dotdot : str := [c_dot; c_dot].

(** posixpath.isabs *)
Definition isabs (p : str) : bool := startswith p [c_slash].

(** posixpath.normpath, the loop over the components: [stack] is new_comps. *)
Fixpoint norm_comps (rooted : bool) (comps stack : list str) : list str :=
  match comps with
  | [] => stack
  | c :: r =>
      if str_eqb c [] || str_eqb c dot then norm_comps rooted r stack
      else if negb (str_eqb c dotdot)
              || (negb rooted && match stack with [] => true | _ => false end)
              || match rev stack with x :: _ => str_eqb x dotdot | [] => false end
           then norm_comps rooted r (stack ++ [c])
           else norm_comps rooted r (removelast stack)
  end.

(** posixpath.normpath *)
Definition normpath (p : str) : str :=
  match p with
  | [] => dot
  | _ =>
      let rooted := startswith p [c_slash] in
      let lead := if rooted then
                    if startswith p [c_slash; c_slash] && negb (startswith p [c_slash; c_slash; c_slash])
                    then [c_slash; c_slash] else [c_slash]
                  else [] in
      match lead ++ join [c_slash] (norm_comps rooted (split_char c_slash p) []) with
      | [] => dot
      | q => q
      end
  end.

(** posixpath.abspath; [cwd] is os.getcwd() *)
Definition abspath (cwd p : str) : str := normpath (if isabs p then p else path_join cwd p).

(** tex_file_extractor.py:90-98 (zip) and 120-128 (tar): the member is kept *)
Definition accepted (cwd temp_dir name : str) : bool :=
  negb (isabs name
        || contains dotdot name
        || negb (startswith (abspath cwd (path_join temp_dir name)) (abspath cwd temp_dir))).

(** ** The file system *)

(** A location is the list of names from the root.  Permissions, contents, hard links
    and devices are not modelled. *)
Definition loc := list str.
Inductive node := NDir | NFile | NLink (target : str).
Definition fs := loc -> option node.

Lemma loc_eq_dec : forall a b : loc, {a = b} + {a <> b}.
Proof. apply list_eq_dec. apply str_eq_dec. Defined.
Definition upd (f : fs) (p : loc) (n : option node) : fs := fun q => if loc_eq_dec q p then n else f q.

(** Kernel path resolution, following every symbolic link, the last one included; the
    last component may be missing.  [k] bounds the steps (ELOOP); None is an OSError. *)
Fixpoint walk (k : nat) (f : fs) (cur : loc) (rest : list str) : option loc :=
  match k with
  | 0 => None
  | S k =>
      match rest with
      | [] => Some cur
      | c :: r =>
          if str_eqb c [] || str_eqb c dot then walk k f cur r
          else if str_eqb c dotdot then walk k f (removelast cur) r
          else match f (cur ++ [c]) with
               | Some (NLink t) => walk k f (if isabs t then [] else cur) (split_char c_slash t ++ r)
               | Some NDir => walk k f (cur ++ [c]) r
               | Some NFile => match r with [] => Some (cur ++ [c]) | _ => None end
               | None => match r with [] => Some (cur ++ [c]) | _ => None end
               end
      end
  end.

(** The extraction state: the file system and the locations created, overwritten or
    removed so far. *)
Record st := { files : fs; touched : list loc }.
Definition touch (s : st) (p : loc) (n : option node) : st := {| files := upd (files s) p n; touched := p :: touched s |}.

(** The components of a path that name something: empty ones and [.] dropped.
    Simplification: a final slash or dot is not checked to follow a directory. *)
Definition parts (p : str) : list str := filter (fun c => negb (str_eqb c [] || str_eqb c dot)) (split_char c_slash p).

(** os.path.exists *)
Definition exists_at (k : nat) (f : fs) (comps : list str) : bool :=
  match walk k f [] comps with Some p => match f p with Some _ => true | None => false end | None => false end.

(** The directory in which the last component is created without following it. *)
Definition parent (k : nat) (f : fs) (comps : list str) : option loc :=
  match walk k f [] (removelast comps) with
  | Some d => match f d with Some NDir => Some (d ++ [last comps []]) | _ => None end
  | None => None
  end.

(** os.mkdir *)
Definition mkdir (k : nat) (s : st) (comps : list str) : st * bool :=
  match parent k (files s) comps with
  | Some p => match files s p with None => (touch s p (Some NDir), true) | Some _ => (s, false) end
  | None => (s, false)
  end.

(** os.makedirs of the directories above the target (tarfile._extract_member: "Create
    all upper directories"; zipfile does the same).  [base] is the extraction root. *)
Fixpoint makedirs (k : nat) (s : st) (base rest : list str) : st * bool :=
  match rest with
  | [] => (s, true)
  | c :: r =>
      if exists_at k (files s) (base ++ [c]) then makedirs k s (base ++ [c]) r
      else match mkdir k s (base ++ [c]) with
           | (s1, true) => makedirs k s1 (base ++ [c]) r
           | (s1, false) => (s1, false)
           end
  end.

(** open(path, "wb") *)
Definition write_file (k : nat) (s : st) (comps : list str) : st * bool :=
  match walk k (files s) [] comps with
  | Some p => match files s p with Some NDir => (s, false) | _ => (touch s p (Some NFile), true) end
  | None => (s, false)
  end.

(** tarfile.makelink for a symbolic link: unlink what is there, then os.symlink *)
Definition symlink (k : nat) (s : st) (comps : list str) (target : str) : st * bool :=
  match parent k (files s) comps with
  | Some p =>
      match files s p with
      | Some NDir => (s, false)
      | Some _ => (touch (touch s p None) p (Some (NLink target)), true)
      | None => (touch s p (Some (NLink target)), true)
      end
  | None => (s, false)
  end.

(** tarfile.makedir: a directory that is already there is no error *)
Definition make_dir (k : nat) (s : st) (comps : list str) : st * bool :=
  if exists_at k (files s) comps
  then (s, match walk k (files s) [] comps with Some p => match files s p with Some NDir => true | _ => false end | None => false end)
  else mkdir k s comps.

(** Hard links, fifos and device members are not modelled. *)
Inductive kind := KFile | KDir | KSym (target : str).
Record member := { m_name : str; m_kind : kind }.

(** tar.extract(member, temp_dir), tarfile._extract_member; [temp] is temp_dir's location *)
Definition extract_one (k : nat) (temp : loc) (s : st) (m : member) : st * bool :=
  let ps := parts (m_name m) in
  match makedirs k s temp (removelast ps) with
  | (s1, true) =>
      match m_kind m with
      | KFile => write_file k s1 (temp ++ ps)
      | KDir => make_dir k s1 (temp ++ ps)
      | KSym t => symlink k s1 (temp ++ ps) t
      end
  | (s1, false) => (s1, false)
  end.

(** tex_file_extractor.py:136-137: the loop stops at the first error *)
Fixpoint extract_all (k : nat) (temp : loc) (s : st) (ms : list member) : st * bool :=
  match ms with
  | [] => (s, true)
  | m :: r => match extract_one k temp s m with
              | (s1, true) => extract_all k temp s1 r
              | (s1, false) => (s1, false)
              end
  end.

(** The path string of a location. *)
Definition path_of (p : loc) : str := [c_slash] ++ join [c_slash] p.

(** tex_file_extractor.py:116-137 *)
Definition extract_tar (k : nat) (cwd : str) (temp : loc) (f : fs) (ms : list member) : st * bool :=
  extract_all k temp {| files := f; touched := [] |} (filter (fun m => accepted cwd (path_of temp) (m_name m)) ms).

(** zipfile.ZipFile._extract_member: [..] components are dropped as well, and a
    symbolic link stored in a zip file is written as a regular file. *)
Definition zip_name (name : str) : str :=
  join [c_slash] (filter (fun c => negb (str_eqb c [] || str_eqb c dot || str_eqb c dotdot)) (split_char c_slash name)).
(** zipfile: a member whose name ends with a slash is a directory *)
Definition zip_member (name : str) : member :=
  {| m_name := zip_name name; m_kind := if endswith name [c_slash] then KDir else KFile |}.

(** tex_file_extractor.py:86-106 *)
Definition extract_zip (k : nat) (cwd : str) (temp : loc) (f : fs) (names : list str) : st * bool :=
  extract_all k temp {| files := f; touched := [] |} (map zip_member (filter (accepted cwd (path_of temp)) names)).

(** ** The main TeX file *)

(** tex_file_extractor.py:17-31 *)
Definition is_main_tex_file (content : str) : bool :=
  let clean := strip_latex_comments content in
  contains (lit "\documentclass") clean || contains (lit "\begin{document}") clean.

(** tex_file_extractor.py:48-63.  [walked] is what os.walk yields, directory by directory,
    with the outcome of read_file (None: it raised). The relative path is abstracted to the
    pair (root, file). None is the FileNotFoundError. *)
Fixpoint main_in (files : list (str * option str)) : option str :=
  match files with
  | [] => None
  | (f, content) :: r =>
      if endswith f (lit ".tex") then
        match content with
        | Some c => if is_main_tex_file c then Some f else main_in r
        | None => main_in r
        end
      else main_in r
  end.
Fixpoint find_main_tex_file (walked : list (str * list (str * option str))) : option (str * str) :=
  match walked with
  | [] => None
  | (root, fl) :: r => match main_in fl with Some f => Some (root, f) | None => find_main_tex_file r end
  end.

(** tex_file_extractor.py:158-166: the name a single .gz file is unpacked to.
    [lower] is str.lower; os.path.basename is what follows the last slash. *)
Definition basename (p : str) : str := last (split_char c_slash p) [].
Definition gz_output (lower : str -> str) (compressed_path : str) : str :=
  let base := basename compressed_path in
  let out := if endswith (lower base) (lit ".gz") then firstn (length base - 3) base else base ++ lit "_extracted" in
  if endswith (lower out) (lit ".tex") then out else out ++ lit ".tex".
