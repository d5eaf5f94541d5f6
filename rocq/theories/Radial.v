(** Short-time-step model: ghedt/peak_load_analysis_tool/radial_numerical_borehole.py.
    Modelled over R only, since it uses log, sqrt, exp and pi.  Simplifications: numpy's division by zero (a warning and
    inf) and math.log of a non-positive number (ValueError) are Coq's total operations, the theorems ask for a geometry in
    which neither happens; scipy's dgtsv is a parameter [solver]; the single U-tube object is the record of the attributes
    that are read, with the value of compute_effective_borehole_resistance() as u_Rb; the interpolant g_sts (line 417) is
    not part of the result. *)
From Coq Require Import ZArith List Reals.
From Verif Require Import Base.
Import ListNotations.
Open Scope R_scope.

(** attributes of the SingleUTube read in lines 102-142, 169-172, 208-210, 228-230, 249-250, 263-267 *)
Record utube := { u_rb : R; u_H : R; u_rin : R; u_rout : R; u_pipe_rhoCp : R; u_fluid_rho : R; u_fluid_cp : R;
  u_grout_rhoCp : R; u_soil_k : R; u_k_s : R; u_soil_rhoCp : R; u_Rf : R; u_Rp : R; u_Rb : R }.

(** RadialCellType (54-59) *)
Inductive cell_type := FLUID | CONVECTION | PIPE | GROUT | SOIL.

(** one column of radial_cell (76-84); the temperature row is kept separately *)
Record cell := { c_type : cell_type; c_in : R; c_center : R; c_out : R; c_thick : R; c_k : R; c_rhoCp : R; c_volume : R }.

(** cell numbers (91-100) *)
Definition num_fluid_cells : nat := 3.
Definition num_conv_cells : nat := 1.
Definition num_pipe_cells : nat := 4.
Definition num_grout_cells : nat := 27.
Definition num_soil_cells : nat := 500.
Definition num_cells : nat := num_fluid_cells + num_conv_cells + num_fluid_cells + num_grout_cells + num_soil_cells + 1.

Section Geometry.
Variable u : utube.
(** 106-107 *)
Definition r_far_field : R := 10 - u_rb u.
(** 110 *)
Definition r_borehole : R := u_rb u.
(** 113 *)
Definition r_out_tube : R := sqrt 2 * u_rout u.
(** 116-117 *)
Definition thickness_pipe : R := u_rout u - u_rin u.
Definition r_in_tube : R := r_out_tube - thickness_pipe.
(** 120 *)
Definition r_in_convection : R := r_in_tube - thickness_pipe / 4.
(** 123 *)
Definition r_fluid : R := r_in_convection - 3 / 4 * thickness_pipe.
(** 126-130 *)
Definition thickness_soil : R := (r_far_field - r_borehole) / INR num_soil_cells.
Definition thickness_grout : R := (r_borehole - r_out_tube) / INR num_grout_cells.
Definition thickness_conv : R := (r_in_tube - r_in_convection) / INR num_conv_cells.
Definition thickness_fluid : R := (r_in_convection - r_fluid) / INR num_fluid_cells.
(** 138-142 *)
Definition c_0 : R := 2 * PI * u_soil_k u.
Definition t_s : R := u_H u ^ 2 / (9 * (u_k_s u / u_soil_rhoCp u)).
Definition calc_time_in_sec : R := Rmax (t_s * exp (- (86 / 10))) (49 * 3600).

(** 174, 191, 211, 231, 251 *)
Definition cell_volume (r_i r_o : R) : R := PI * (r_o ^ 2 - r_i ^ 2).

(** fluid cells (156-178) *)
Definition fluid_cell (idx : nat) : cell :=
  let thickness := thickness_fluid in
  let center := r_fluid + INR idx * thickness in
  let inner := match idx with O => center | _ => center - thickness / 2 end in
  let outer := center + thickness / 2 in
  let rho_cp_eq := (2 * u_rin u ^ 2 * u_fluid_rho u * u_fluid_cp u) / (r_in_convection ^ 2 - r_fluid ^ 2) in
  {| c_type := FLUID; c_in := inner; c_center := center; c_out := outer; c_thick := thickness;
     c_k := rho_cp_eq / u_fluid_cp u; c_rhoCp := rho_cp_eq; c_volume := cell_volume inner outer |}.
(** the four other regions have cells of one thickness beginning at a radius (183-196, 201-215, 221-235, 242-255) *)
Definition layer_cell (ty : cell_type) (start thickness k rho_cp : R) (j : nat) : cell :=
  let inner := start + INR j * thickness in
  {| c_type := ty; c_in := inner; c_center := inner + thickness / 2; c_out := inner + thickness; c_thick := thickness;
     c_k := k; c_rhoCp := rho_cp; c_volume := cell_volume inner (inner + thickness) |}.

(** fill_radial_cell (145-256): the columns in order *)
Definition fill_radial_cell (R_p_eq R_f_eq R_TG_eq : R) : list cell :=
  map fluid_cell (seq 0 num_fluid_cells)
  ++ map (layer_cell CONVECTION r_in_convection thickness_conv (ln (r_in_tube / r_in_convection) / (2 * PI * R_f_eq)) 1) (seq 0 num_conv_cells)
  ++ map (layer_cell PIPE r_in_tube thickness_pipe (ln (r_borehole / r_in_tube) / (2 * PI * R_p_eq)) (u_pipe_rhoCp u)) (seq 0 num_pipe_cells)
  ++ map (layer_cell GROUT r_out_tube thickness_grout (ln (r_borehole / r_in_tube) / (2 * PI * R_TG_eq)) (u_grout_rhoCp u)) (seq 0 num_grout_cells)
  ++ map (layer_cell SOIL r_borehole thickness_soil (u_soil_k u) (u_soil_rhoCp u)) (seq 0 num_soil_cells).
End Geometry.

(** fill_f1, fill_f2 (345-353), and 321-326 for the first cell *)
Definition f1 (c : cell) : R := ln (c_out c / c_center c) / (2 * PI * c_k c).
Definition f2 (c : cell) : R := ln (c_center c / c_in c) / (2 * PI * c_k c).
(** 327 and 357; 359-361; 329-330 and 363 *)
Definition east (center e : cell) : R := 1 / (f1 center + f2 e).
Definition west (w center : cell) : R := - 1 / (f1 w + f2 center).
Definition stored (time_step : R) (c : cell) : R := c_rhoCp c * c_volume c / time_step.

(** cells 1 to n-2 with their neighbours: _west_cell, _center_cell, _east_cell (311-313) *)
Fixpoint inner_cells (cells : list cell) : list (cell * cell * cell) :=
  match cells with
  | w :: ((c :: e :: _) as r) => (w, c, e) :: inner_cells r
  | _ => []
  end.

(** the diagonals of the system (332-333, 338-339, 365-367) *)
Definition lower (time_step : R) (cells : list cell) : list R :=
  map (fun x => match x with (w, c, e) => - west w c / stored time_step c end) (inner_cells cells) ++ [0].
Definition diagonal (time_step : R) (cells : list cell) : list R :=
  match cells with
  | c0 :: c1 :: _ =>
      (- east c0 c1 / stored time_step c0 - 1)
      :: map (fun x => match x with (w, c, e) => west w c / stored time_step c - east c e / stored time_step c - 1 end) (inner_cells cells)
      ++ [1]
  | _ => []
  end.
Definition upper (time_step : R) (cells : list cell) : list R :=
  match cells with
  | c0 :: c1 :: _ =>
      east c0 c1 / stored time_step c0 :: map (fun x => match x with (w, c, e) => east c e / stored time_step c end) (inner_cells cells)
  | _ => []
  end.
(** 334, 340-341, 368: the middle of the list of temperatures negated, the last one kept *)
Fixpoint negate_but_last (T : list R) : list R :=
  match T with [] => [] | [t] => [t] | t :: r => - t :: negate_but_last r end.
Definition right_side (heat_flux time_step : R) (cells : list cell) (T : list R) : list R :=
  match cells, T with
  | c0 :: _, T0 :: r => (- T0 - heat_flux / stored time_step c0) :: negate_but_last r
  | _, _ => []
  end.

(** one time step: 319-376 *)
Definition step (solver : list R -> list R -> list R -> list R -> list R) (heat_flux time_step : R) (cells : list cell) (T : list R) : list R :=
  solver (lower time_step cells) (diagonal time_step cells) (upper time_step cells) (right_side heat_flux time_step cells T).

(** the loop (315-415), with fuel; T, g and lntts are the values before the iteration *)
Fixpoint loop (fuel : nat) (solver : list R -> list R -> list R -> list R -> list R) (u : utube) (cells : list cell)
    (at_wall : bool) (final_time init_temp time : R) (T g lntts : list R) : res (list R * list R) :=
  match fuel with
  | O => Err OutOfFuel
  | S fuel =>
      let heat_flux := 1 in
      let time_step := 120 in
      let time := time + time_step in
      let T := step solver heat_flux time_step cells T in
      if at_wall then Err ValueError
      else
        let g := g ++ [c_0 u * ((hd 0 T - init_temp) / heat_flux - u_Rb u)] in
        let lntts := lntts ++ [ln (time / t_s u)] in
        if Rle_dec (final_time - time_step) time then Ok (lntts, g)
        else loop fuel solver u cells at_wall final_time init_temp time T g lntts
  end.

(** calc_sts_g_functions (258-419); line 261 runs the constructor again, so the initial temperature is its default 20 and
    the stored tables are empty *)
Definition calc_sts_g_functions (fuel : nat) solver (u : utube) (final_time : option R) (at_wall : bool) : res (list R * list R) :=
  let init_temp := 20 in
  let R_f_eq := u_Rf u / 2 in
  let R_p_eq := u_Rp u / 2 in
  let R_TG_eq := u_Rb u - R_f_eq in
  let cells := fill_radial_cell u R_p_eq R_f_eq R_TG_eq in
  let final_time := match final_time with Some t => t | None => calc_time_in_sec u end in
  loop fuel solver u cells at_wall final_time init_temp (/ 1000000000000 - 120) (map (fun _ => init_temp) cells) [] [].
