(** Model of ghedt/design.py and of GeometricConstraints.check_inputs (ghedt/media.py:23-40).
    Not modelled: printing (disp, the note about the hourly method). *)
From Coq Require Import ZArith QArith List Bool.
From Verif Require Import Base Num Utilities Domains Search.
Import ListNotations.
Open Scope Z_scope.

(** the argument [routine]; any other text is [unknown_routine] *)
Inductive routine : Set := near_square | rectangle_routine | bi_rectangle | bi_zoned | unknown_routine.

Section Design.
Context {F : Type} {N : Num F}.

(** media.py:3-21; None when not given.  outer_constraints and no_go are never read. *)
Record constraints : Type := {
  gc_length : option F; gc_width : option F; gc_B : option F;
  gc_B_min : option F; gc_B_max_x : option F; gc_B_max_y : option F
}.

(** [assert x is not None] *)
Definition not_none (x : option F) : res unit := assert_ (match x with Some _ => true | None => false end).

(** media.py:23-40; the condition of the last branch (line 33: method == 'bi-rectangle' or 'bi-zoned') is always true *)
Definition check_inputs (gc : constraints) (method : routine) : res unit :=
  match method with
  | near_square =>
      let! _ := not_none (gc_B gc) in
      not_none (gc_length gc)
  | rectangle_routine =>
      let! _ := not_none (gc_width gc) in
      let! _ := not_none (gc_length gc) in
      let! _ := not_none (gc_B_min gc) in
      not_none (gc_B_max_x gc)
  | _ =>
      let! _ := not_none (gc_width gc) in
      let! _ := not_none (gc_length gc) in
      let! _ := not_none (gc_B_min gc) in
      let! _ := not_none (gc_B_max_x gc) in
      not_none (gc_B_max_y gc)
  end.

(** using None in arithmetic *)
Definition number (x : option F) : res F := match x with Some a => Ok a | None => Err TypeError end.

(** self.coordinates_domain or self.coordinates_domain_nested *)
Inductive candidates : Type := one_domain (d : list (list (F * F))) | nested_domain (dd : list (list (list (F * F)))).

(** design.py:44-80 *)
Definition design_init (gc : constraints) (r : routine) : res candidates :=
  let! _ := check_inputs gc r in
  match r with
  | near_square =>
      let! length := number (gc_length gc) in
      let! B := number (gc_B gc) in
      let! number_of_boreholes := number_of_boreholes length B false in
      let! d := square_and_near_square 1 number_of_boreholes B in
      Ok (one_domain d)
  | rectangle_routine =>
      let! length := number (gc_length gc) in
      let! width := number (gc_width gc) in
      let! B_min := number (gc_B_min gc) in
      let! B_max_x := number (gc_B_max_x gc) in
      let! d := rectangular length width B_min B_max_x in
      Ok (one_domain d)
  | bi_rectangle =>
      let! length := number (gc_length gc) in
      let! width := number (gc_width gc) in
      let! B_min := number (gc_B_min gc) in
      let! B_max_x := number (gc_B_max_x gc) in
      let! B_max_y := number (gc_B_max_y gc) in
      let! dd := bi_rectangle_nested length width B_min B_max_x B_max_y in
      Ok (nested_domain dd)
  | bi_zoned =>
      let! length := number (gc_length gc) in
      let! width := number (gc_width gc) in
      let! B_min := number (gc_B_min gc) in
      let! B_max_x := number (gc_B_max_x gc) in
      let! B_max_y := number (gc_B_max_y gc) in
      let! dd := bi_rectangle_zoned_nested length width B_min B_max_x B_max_y in
      Ok (nested_domain dd)
  | unknown_routine => Err ValueError
  end.

(** ** find_design *)
Notation field := (list (F * F)).
(** the oracles of Search.v: heat exchanger construction, simulated excess, sized height *)
(** heights and temperatures; the same numbers as the coordinates, or others when only the geometry is of interest *)
Context {V : Type} {NV : Num V}.
Variable build : field -> V -> res unit.
Variable sim : field -> V -> res (xval V).
Variable sized : field -> res V.
Variable minH maxH : V.

(** Bisection1D.__init__ up to the search (search_routines.py:20-53): a heat exchanger for the first field, at the height of
    the given borehole *)
Definition base_init (d : list field) (H : V) : res (sstate field (F := V)) :=
  let! c := py_nth d 0 in
  let! _ := build c H in
  Ok {| dom := d; temps := []; ghe := (c, H); trace := []; temps_nested := []; heights := [] |}.

(** the search object: selection_key, selected_coordinates and its other attributes *)
Definition found : Type := option (Z * field) * sstate field (F := V).

(** search_routines.py:55-56, default max_iter = 15 *)
Definition bisection_1d (d : list field) (H : V) : res found :=
  let! s := base_init d H in
  let (r, s') := search field build sim minH maxH 15 s in
  let! r := r in Ok (r, s').
(** search_routines.py:230-261 *)
Definition bisection_2d (nested : list (list field)) (H : V) : res found :=
  let! d := py_nth nested 0 in
  let! s := base_init d H in
  let (r, s') := search_2d field build sim minH maxH nested 15 s in
  let! r := r in Ok (snd r, s').
(** search_routines.py:276-302 *)
Definition bisection_zd (nested : list (list field)) (H : V) : res found :=
  let! d := py_nth nested 0 in
  let! s := base_init d H in
  let (r, s') := search_zd field build sim sized zlen minH maxH nested 15 s in
  let! r := r in let '(_, k, c) := r in Ok (Some (k, c), s').

(** design.py:82-120.  A Design holds the candidates of its own routine; a mismatch would be an AttributeError. *)
Definition find_design (r : routine) (cs : candidates) (H : V) : res found :=
  match r, cs with
  | near_square, one_domain d => bisection_1d d H
  | rectangle_routine, one_domain d => bisection_1d d H
  | bi_rectangle, nested_domain dd => bisection_2d dd H
  | bi_zoned, nested_domain dd => bisection_zd dd H
  | unknown_routine, _ => Err ValueError
  | _, _ => Err AttributeError
  end.

(** Design(...).find_design() for a borehole of height H *)
Definition design (gc : constraints) (r : routine) (H : V) : res found :=
  let! cs := design_init gc r in find_design r cs H.

End Design.
