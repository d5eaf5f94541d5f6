(** The geometric part of the example scripts in ghedt/examples/Design and ghedt/examples/Design/FromFile: the keyword arguments of
    GeometricConstraints and the construction of each Design.  The numbers written in the scripts are arguments here; the
    thermal inputs, plots and printing are left out. *)
From Coq Require Import ZArith Bool String List.
From Verif Require Import Base Num Utilities Domains Design Report.
Import ListNotations.
Open Scope string_scope.

Section Scripts.
Context {F : Type} {N : Num F}.

(** a number, or something else (a flag, a list) *)
Inductive argument : Type := number_arg (x : F) | other_arg.
Definition as_number (a : option argument) : option F := match a with Some (number_arg x) => Some x | _ => None end.

(** the parameters of GeometricConstraints.__init__, media.py:2-5 *)
Definition parameters : list string := ["length"; "width"; "B"; "B_min"; "B_max_x"; "B_max_y"; "outer_constraints"; "no_go"].
Definition lookup (k : string) (l : dict argument) : option argument := match dict_get l k with Ok v => Some v | Err _ => None end.
(** GeometricConstraints called with keyword arguments: a name that is no parameter is a TypeError; media.py:6-21 stores the others.
    Only numbers are passed for the lengths *)
Definition geometric_constraints (l : dict argument) : res (@constraints F) :=
  if forallb (fun p => existsb (String.eqb (fst p)) parameters) l then
    let get k := as_number (lookup k l) in
    Ok {| gc_length := get "length"; gc_width := get "width"; gc_B := get "B"; gc_B_min := get "B_min"; gc_B_max_x := get "B_max_x"; gc_B_max_y := get "B_max_y" |}
  else Err TypeError.

(** design_script l rs: the constraints, then one Design per routine, in order *)
Definition design_script (l : dict argument) (rs : list routine) : res (list (@candidates F)) :=
  let! gc := geometric_constraints l in mapM (design_init gc) rs.

(** find_near_square.py:128-137, 163-166, 185-188; in the script n = 32, B = 5 *)
Definition find_near_square (n : Z) (B : F) : res (list candidates) :=
  design_script [("B", number_arg B); ("length", number_arg (length_of_side n B))] [near_square; near_square; near_square].
(** find_rectangle.py:122-147, 186-189, 208-211; in the script 85, 36.5, 3, 10 *)
Definition find_rectangle (length width B_min B_max : F) : res (list candidates) :=
  design_script [("length", number_arg length); ("width", number_arg width); ("B_min", number_arg B_min); ("B_max_x", number_arg B_max)]
    [rectangle_routine; rectangle_routine; rectangle_routine].
Definition nested_arguments (length width B_min B_max_x B_max_y : F) : dict argument :=
  [("length", number_arg length); ("width", number_arg width); ("B_min", number_arg B_min); ("B_max_x", number_arg B_max_x); ("B_max_y", number_arg B_max_y)].
(** find_bi_rectangle.py:122-145, 184-187, 206-209; in the script 85, 36.5, 4.45, 10, 12 *)
Definition find_bi_rectangle (length width B_min B_max_x B_max_y : F) : res (list candidates) :=
  design_script (nested_arguments length width B_min B_max_x B_max_y) [bi_rectangle; bi_rectangle; bi_rectangle].
(** find_bi_zoned_rectangle.py:122-145, 184-187, 206-209: the routine of the double U-tube and of the coaxial tube is 'bi-rectangle' *)
Definition find_bi_zoned_rectangle (length width B_min B_max_x B_max_y : F) : res (list candidates) :=
  design_script (nested_arguments length width B_min B_max_x B_max_y) [bi_zoned; bi_rectangle; bi_rectangle].
(** create_near_square_input_file.py:118-151 *)
Definition create_near_square_input_file (B : F) : res (list candidates) :=
  design_script [("B_max_x", number_arg B); ("unconstrained", other_arg)] [near_square; near_square; near_square].
(** create_rectangular_input_file.py:117-134 *)
Definition create_rectangular_input_file (length width B_min B_max : F) : res (list candidates) :=
  design_script [("length", number_arg length); ("width", number_arg width); ("B_min", number_arg B_min); ("B_max_x", number_arg B_max); ("unconstrained", other_arg)]
    [rectangle_routine].
(** create_bi_rectangle_input_file.py:118-136 *)
Definition create_bi_rectangle_input_file (length width B_min B_max_x B_max_y : F) : res (list candidates) :=
  design_script (nested_arguments length width B_min B_max_x B_max_y) [bi_rectangle].
(** design_from_ornl_json_input.py:14-121: the keys it reads from the file, in its order, then the design; [file] is what
    js_load returned *)
Definition ornl_keys : list string :=
  ["max_height"; "bore_hole_radius"; "B_spacing"; "pipe_out_diameter"; "pipe_thickness"; "u-tube_distance"; "pipe_thermal_conductivity";
   "ground_thermal_conductivity"; "grout_thermal_conductivity"; "ground_thermal_heat_capacity"; "ground_temperature"; "design_flow_rate"].
Definition design_from_ornl_json_input (file : dict F) : res (list candidates) :=
  let! _ := mapM (dict_get file) ornl_keys in
  let! B := dict_get file "B_spacing" in
  design_script [("B", number_arg B)] [near_square].
End Scripts.
