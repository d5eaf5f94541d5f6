(** Vocabulary of the short-time-step properties: tridiagonal systems, heat flow between cells, admissible geometries *)
From Coq Require Import List Reals.
From Verif Require Import Radial.
Import ListNotations.
Open Scope R_scope.

(** the number at a position, 0 outside *)
Definition at_ (l : list R) (i : nat) : R := nth i l 0.

(** x solves the tridiagonal system with lower diagonal dl, diagonal d, upper diagonal du and right side b *)
Definition solves (dl d du b x : list R) : Prop :=
  length x = length d /\
  forall i, (i < length d)%nat ->
    match i with O => 0 | S j => at_ dl j * at_ x j end + at_ d i * at_ x i + (if Nat.eqb (S i) (length d) then 0 else at_ du i * at_ x (S i))
    = at_ b i.

(** in every row the diagonal entry is larger than the others together *)
Definition dominant (dl d du : list R) : Prop :=
  forall i, (i < length d)%nat ->
    match i with O => 0 | S j => Rabs (at_ dl j) end + (if Nat.eqb (S i) (length d) then 0 else Rabs (at_ du i)) < Rabs (at_ d i).

(** what is asked of the solver (scipy.linalg.lapack.dgtsv): it solves diagonally dominant systems *)
Definition good_solver (solver : list R -> list R -> list R -> list R -> list R) : Prop :=
  forall dl d du b, dominant dl d du -> (0 < length d)%nat -> solves dl d du b (solver dl d du b).

(** resistance of a cylinder wall per length, conductance from the centre of a cell to the centre of the next *)
Definition wall_resistance (r_i r_o k : R) : R := ln (r_o / r_i) / (2 * PI * k).
Definition conductance (a b : cell) : R := / (wall_resistance (c_center a) (c_out a) (c_k a) + wall_resistance (c_in b) (c_center b) (c_k b)).
Definition heat_capacity (c : cell) : R := c_rhoCp c * c_volume c.

(** i-th cell; any cell outside *)
Definition no_cell : cell := {| c_type := FLUID; c_in := 1; c_center := 1; c_out := 1; c_thick := 0; c_k := 1; c_rhoCp := 0; c_volume := 0 |}.
Definition cell_at (cells : list cell) (i : nat) : cell := nth i cells no_cell.
(** heat flowing per second from cell i to cell i+1 *)
Definition flow (cells : list cell) (T : list R) (i : nat) : R :=
  conductance (cell_at cells i) (cell_at cells (S i)) * (at_ T i - at_ T (S i)).

(** all heat capacities (but the last) and all conductances are positive *)
Definition physical (cells : list cell) : Prop :=
  forall i, (S i < length cells)%nat -> 0 < heat_capacity (cell_at cells i) /\ 0 < conductance (cell_at cells i) (cell_at cells (S i)).

(** implicit heat balance of one time step: T before, T' after *)
Definition balance (heat_flux dt : R) (cells : list cell) (T T' : list R) : Prop :=
  length T' = length cells /\
  (forall i, (S i < length cells)%nat ->
     heat_capacity (cell_at cells i) * (at_ T' i - at_ T i)
     = dt * (match i with O => heat_flux | S j => flow cells T' j end - flow cells T' i)) /\
  at_ T' (length cells - 1) = at_ T (length cells - 1).

(** sums over positions *)
Fixpoint sum_to (n : nat) (f : nat -> R) : R := match n with O => 0 | S n => sum_to n f + f n end.

(** resistance from the fluid to the outermost cell *)
Definition total_resistance (cells : list cell) : R :=
  sum_to (length cells - 1) (fun i => / conductance (cell_at cells i) (cell_at cells (S i))).

(** boreholes for which every cell has positive size: the equivalent tube fits into the borehole, its wall is thin enough to
    leave room for the fluid, and the resistances are positive *)
Record admissible (u : utube) : Prop := {
  ad_rin : 0 < u_rin u < u_rout u;
  ad_fluid : 2 * (u_rout u - u_rin u) < sqrt 2 * u_rout u;
  ad_rb : sqrt 2 * u_rout u < u_rb u < 5;
  ad_H : 0 < u_H u;
  ad_pipe : 0 < u_pipe_rhoCp u; ad_rho : 0 < u_fluid_rho u; ad_cp : 0 < u_fluid_cp u; ad_grout : 0 < u_grout_rhoCp u;
  ad_k : 0 < u_soil_k u; ad_ks : 0 < u_k_s u; ad_soil : 0 < u_soil_rhoCp u;
  ad_Rf : 0 < u_Rf u; ad_Rp : 0 < u_Rp u; ad_Rb : u_Rf u / 2 < u_Rb u }.

(** the grid calc_sts_g_functions uses *)
Definition grid (u : utube) : list cell := fill_radial_cell u (u_Rp u / 2) (u_Rf u / 2) (u_Rb u - u_Rf u / 2).
(** temperatures after a number of steps *)
Definition after (solver : list R -> list R -> list R -> list R -> list R) (heat_flux dt : R) (cells : list cell) (T : list R) (k : nat) : list R :=
  Nat.iter k (step solver heat_flux dt cells) T.
