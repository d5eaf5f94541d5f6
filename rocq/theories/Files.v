(** Model of the functions of ghedt/utilities.py that touch files (lines 123-154) and of ghedt/examples/Design/FromFile/design_from_input.py.
    A directory tree is modelled by the contents of the files and the set of the directories, by path.  Two paths are the same when their texts
    are (no '.', '..', links).  Opening a file for writing always succeeds; the encodings (json, pickle) are arguments. *)
From Coq Require Import ZArith Bool String List.
From Verif Require Import Base.
Import ListNotations.
Open Scope string_scope.

Section Files.
(** contents of files *)
Variable bytes : Type.
(** the files by path, and whether a path is a directory *)
Record tree : Type := { file : string -> option bytes; directory : string -> bool }.
(** open(path, 'w') followed by writing and closing: the earlier contents are gone *)
Definition put (t : tree) (path : string) (b : bytes) : tree :=
  {| file := fun p => if String.eqb p path then Some b else file t p; directory := directory t |}.
(** open(path) and reading; FileNotFoundError is an OtherError here *)
Definition contents (t : tree) (path : string) : res bytes := match file t path with Some b => Ok b | None => Err OtherError end.

(** a Python object *)
Variable value : Type.
(** json.dump and pickle.dump write while they walk through the object: what has been written, and the exception if there was one *)
Variable encode : value -> bytes * option exn.
(** json.load, pickle.load *)
Variable decode : bytes -> res value.

(** an exception leaves what was written by then; [suffix] is added to the name *)
Definition save (suffix : string) (t : tree) (file_name : string) (d : value) : tree * res unit :=
  let (b, e) := encode d in
  (put t (file_name ++ suffix) b, match e with None => Ok tt | Some e => Err e end).
(** utilities.py:123-125 *)
Definition js_dump (t : tree) (file_name : string) (d : value) : tree * res unit := save ".json" t file_name d.
(** utilities.py:128-130: the name is taken as it is *)
Definition js_load (t : tree) (filename : string) : res value := let! b := contents t filename in decode b.
(** utilities.py:139-145 *)
Definition create_input_file (t : tree) (self : value) (file_name : string) : tree * res unit := save ".obj" t file_name self.
(** utilities.py:148-154: the name is taken as it is *)
Definition read_input_file (t : tree) (path_to_file : string) : res value := let! b := contents t path_to_file in decode b.

(** utilities.py:133-136; [up] lists a path and the paths above it.  os.makedirs makes those that are missing; it raises
    FileExistsError or NotADirectoryError when one of them is a file *)
Definition exists_at (t : tree) (path : string) : bool := directory t path || match file t path with Some _ => true | None => false end.
Definition create_if_not (up : string -> list string) (t : tree) (path : string) : tree * res unit :=
  if exists_at t path then (t, Ok tt)
  else if existsb (fun p => match file t p with Some _ => true | None => false end) (up path) then (t, Err OtherError)
  else ({| file := file t; directory := fun p => existsb (String.eqb p) (up path) || directory t p |}, Ok tt).

End Files.

Section FromFile.
(** files hold designs (pickle) and exported dictionaries (json) *)
Variables bytes design exported : Type.
Variable unpickled : bytes -> res design.
Variable written : exported -> bytes * option exn.
(** find_design, compute_g_functions, size and the dictionary of oak_ridge_export of a design (Program.v) *)
Variable run : design -> res exported.

(** design_from_input.py:12-25 *)
Definition design_from_input (t : tree bytes) : tree bytes * res unit :=
  match (let! d := read_input_file bytes design unpickled t "ghedt_input.obj" in run d) with
  | Err e => (t, Err e)
  | Ok d => js_dump bytes exported written t "ghedt_output" d
  end.
End FromFile.
