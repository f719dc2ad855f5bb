(** Model of the state of a TexReader and of its life in a process:
    TexReader.process_file and clear (tex_reader.py:51-54, 103-125, 185-188) with the clear
    methods of every object below a reader.  What parsing and building do is any
    computation that reads and writes these attributes. *)
From Coq Require Import List NArith ZArith PeanoNat Bool String.
From Verif Require Import PyStr Json.
Import ListNotations. Notation length := List.length. Notation concat := List.concat. Open Scope list_scope.

(** the CommandManagers (tex_parser.py:67, tex_preprocessor.py:71, sty_parser.py:47)
    and IfElseBlockHandlers (tex_parser.py:73, tex_preprocessor.py:73, sty_parser.py:52)
    of the parser, the preprocessor and the style parser *)
Inductive owner := Parser | Preprocessor | Styles.
(** Every attribute that is written after construction.  (Not listed: attributes
    that no code writes, such as the tables of handlers that are only inherited.) *)
Inductive attr :=
(* LatexParser, tex_parser.py:50-61 *)
| Labels | Unknown | Colors | Current_str | File_dir | Current_env
(* CommandManager, command_manager.py:34; CommandProcessor, command_processor.py:100-101;
   KeyValHandler, keyval.py; IfElseBlockHandler, if_else_statements.py:189-190 *)
| Unknown_commands (o : owner) | Commands (o : owner) | Let_commands (o : owner) | Key_definitions (o : owner) | All_ifs (o : owner)
(* EnvironmentHandler, environment.py:187-188, 394 *)
| Newtheorems | Floatnames | Environments
(* EtoolboxHandler, etoolbox.py:20; AuthorHandler, author.py:28 *)
| Bools | Last_thanks
(* BoxHandler, boxes.py:69-70: class attributes; one object among the handlers, one in
   the EquationHandler of the parser, one in that of the preprocessor *)
| Saved_boxes | Numbered_boxes | Eq_saved_boxes | Eq_numbered_boxes | Pre_saved_boxes | Pre_numbered_boxes
(* ContentCommandHandler, content_command.py:88: a class attribute; the same three places *)
| Aliases | Eq_aliases | Pre_aliases
(* LatexStyParser, sty_parser.py:44-45 *)
| Sty_file_dir | Parsed_files
(* TokenBuilder, builder.py:122-130 *)
| Section_numbers | Math_env_number | Equation_number | Table_number | Figure_number | Algorithm_number.
Definition attr_eq_dec : forall a b : attr, {a = b} + {a <> b}.
Proof. repeat decide equality. Defined.
(** The dictionaries that live in a class. *)
Inductive class_dict := BoxHandler_saved_boxes | BoxHandler_numbered_boxes | ContentCommandHandler_citealias.
Definition class_of (a : attr) : option class_dict :=
  match a with
  | Saved_boxes | Eq_saved_boxes | Pre_saved_boxes => Some BoxHandler_saved_boxes
  | Numbered_boxes | Eq_numbered_boxes | Pre_numbered_boxes => Some BoxHandler_numbered_boxes
  | Aliases | Eq_aliases | Pre_aliases => Some ContentCommandHandler_citealias
  | _ => None
  end.
(** What __init__ and clear give an attribute; the values of sets and patterns are
    abstracted to lists and dictionaries. *)
Definition initial (a : attr) : val :=
  match a with
  | Current_str => VStr []
  | File_dir | Current_env | Last_thanks | Sty_file_dir => VNone
  | All_ifs _ | Parsed_files => VList []
  | Section_numbers => VDict [(lit "1", VInt 0%Z); (lit "2", VInt 0%Z); (lit "3", VInt 0%Z)]
  | Math_env_number | Equation_number | Table_number | Figure_number | Algorithm_number => VInt 0%Z
  | _ => VDict []
  end.
(** An attribute of an object, or none of its own: then the one of the class. *)
Inductive slot := Own (v : val) | Of_class (c : class_dict).
Definition store := attr -> slot.
Record world := { readers : nat -> store; classes : class_dict -> val }.
Definition put (s : store) (a : attr) (x : slot) : store := fun b => if attr_eq_dec b a then x else s b.
Definition with_reader (w : world) (r : nat) (s : store) : world :=
  {| readers := fun q => if q =? r then s else readers w q; classes := classes w |}.
Definition class_dict_eq_dec : forall a b : class_dict, {a = b} + {a <> b}.
Proof. decide equality. Defined.
(** TexReader(), tex_reader.py:51-54 *)
Definition new_store : store := fun a => match class_of a with Some c => Of_class c | None => Own (initial a) end.
Definition new_reader (w : world) (r : nat) : world := with_reader w r new_store.
(** a process in which nothing has run; every reader in it is new *)
Definition new_world : world := {| readers := fun _ => new_store; classes := fun _ => VDict [] |}.
Definition read (w : world) (r : nat) (a : attr) : val :=
  match readers w r a with Own v => v | Of_class c => classes w c end.
(** changing what is stored: a dictionary of the class is changed for all *)
Definition write (w : world) (r : nat) (a : attr) (v : val) : world :=
  match readers w r a with
  | Own _ => with_reader w r (put (readers w r) a (Own v))
  | Of_class c => {| readers := readers w; classes := fun d => if class_dict_eq_dec d c then v else classes w d |}
  end.
(** command_manager.py:36-41, command_processor.py:103-105, keyval.py:165-166 *)
Definition clear_manager (o : owner) : list attr := [Commands o; Let_commands o; Key_definitions o; Unknown_commands o].
(** environment.py:196-198, 396-397, 478-480 *)
Definition clear_environments : list attr := [Newtheorems; Floatnames; Environments].
(** the handlers in the order of tex_parser.py:76-105: etoolbox.py:22-23, boxes.py:80-82,
    author.py:30-31, equation.py:65-66 (its box handler only), content_command.py:90-91 *)
Definition clear_handlers : list attr :=
  [Bools; Saved_boxes; Numbered_boxes; Last_thanks; Eq_saved_boxes; Eq_numbered_boxes; Aliases] ++ clear_environments.
(** sty_parser.py:54-58 *)
Definition clear_styles : list attr := [Sty_file_dir; Parsed_files; All_ifs Styles] ++ clear_manager Styles.
(** tex_preprocessor.py:79-82 *)
Definition clear_preprocessor : list attr := [All_ifs Preprocessor] ++ clear_manager Preprocessor ++ clear_styles.
(** tex_parser.py:119-136 *)
Definition clear_parser : list attr :=
  [Labels; Unknown; Colors; Current_str; File_dir; Current_env] ++ clear_manager Parser ++ clear_handlers ++ [All_ifs Parser] ++ clear_preprocessor.
(** builder.py:121-133 *)
Definition clear_builder : list attr := [Section_numbers; Math_env_number; Equation_number; Table_number; Figure_number; Algorithm_number].
(** Each of them assigns a new value to the attribute of the object. *)
Definition assign (s : store) (a : attr) : store := put s a (Own (initial a)).
(** tex_reader.py:185-188 *)
Definition clear (w : world) (r : nat) : world := with_reader w r (fold_left assign (clear_parser ++ clear_builder) (readers w r)).
(** Any computation of a reader: it reads and writes attributes and ends with a result or an exception. *)
Inductive run :=
| Return (result : val)
| Throw (e : exn)
| Read (a : attr) (k : val -> run)
| Write (a : attr) (v : val) (k : run).
Fixpoint exec (w : world) (r : nat) (p : run) : res val * world :=
  match p with
  | Return v => (Ok v, w)
  | Throw e => (Raise e, w)
  | Read a k => exec w r (k (read w r a))
  | Write a v k => exec (write w r a v) r k
  end.
(** tex_reader.py:116-125: parse_file, build and get_colors are [p]; the second clear is
    not reached after an exception *)
Definition process_file (w : world) (r : nat) (p : run) : res val * world :=
  match exec (clear w r) r p with
  | (Ok v, w') => (Ok v, clear w' r)
  | (Raise e, w') => (Raise e, w')
  end.
(** What happened before: readers were made and files were processed, in any order. *)
Inductive event := Make (r : nat) | File (r : nat) (p : run).
Definition happen (w : world) (e : event) : world :=
  match e with Make r => new_reader w r | File r p => snd (process_file w r p) end.
