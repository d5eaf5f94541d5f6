(** Words used in the statements about pipes and equivalent boreholes; nothing here refers to the model's own formulas. *)
From Coq Require Import ZArith List Reals.
From Verif Require Import Base Bhe.
Import ListNotations.
Open Scope R_scope.

Definition dist2 (p q : R * R) : R := (fst p - fst q) ^ 2 + (snd p - snd q) ^ 2.
(** two pipes of outer radius [r] with these centres do not overlap *)
Definition disjoint (r : R) (p q : R * R) : Prop := (2 * r) ^ 2 <= dist2 p q.
(** the pipe of outer radius [r] lies in the borehole of radius [r_b] around the origin *)
Definition inside (r_b r : R) (p : R * R) : Prop := r <= r_b /\ dist2 p (0, 0) <= (r_b - r) ^ 2.
Definition on_circle (D angle : R) : R * R := (D * cos angle, D * sin angle).
Definition disc (r : R) : R := PI * r ^ 2.
(** resistance of the wall of a cylinder, per metre *)
Definition wall (r_in r_out k : R) : R := ln (r_out / r_in) / (2 * PI * k).
(** film resistance at a cylinder, per metre *)
Definition film (h r : R) : R := 1 / (h * (2 * PI * r)).
(** Reynolds number of the flow [m] with hydraulic diameter 4A/P *)
Definition reynolds (m area perimeter mu : R) : R := m * (4 * area / perimeter) / (area * mu).

(** a root finder whose value, and the last point it tried, solve the equation up to [tol]; it may fail *)
Definition settles (tol : R) (brentq : (R -> res R) -> R -> R -> list R * res R) : Prop :=
  forall f lo up pts k, brentq f lo up = (pts, Ok k) ->
  pts <> [] /\ (exists v, f (last pts lo) = Ok v /\ Rabs v <= tol) /\ (exists v, f k = Ok v /\ Rabs v <= tol).

(** the tube pygfunction holds, with another grout *)
Definition with_grout (k : R) (g : pg_u) : pg_u :=
  {| pg_pos := pg_pos g; pg_rin := pg_rin g; pg_rout := pg_rout g; pg_rb := pg_rb g; pg_ks := pg_ks g; pg_kg := k; pg_Rfp := pg_Rfp g; pg_n := pg_n g; pg_config := pg_config g |}.
(** a coaxial heat exchanger with another recorded pipe flow *)
Definition with_pipe_flow (m : R) (b : cbhe) : cbhe :=
  {| cb_m := cb_m b; cb_m_pipe := m; cb_fluid := cb_fluid b; cb_geo := cb_geo b; cb_Rp_in := cb_Rp_in b; cb_Rp_out := cb_Rp_out b;
     cb_Rgrout := cb_Rgrout b; cb_h_a_in := cb_h_a_in b; cb_h_a_out := cb_h_a_out b; cb_Rf_a_in := cb_Rf_a_in b; cb_Rf_a_out := cb_Rf_a_out b;
     cb_h_in := cb_h_in b; cb_Rf_in := cb_Rf_in b; cb_pg := cb_pg b |}.
(** a U-tube with another recorded borehole flow *)
Definition with_borehole_flow (m : R) (b : ubhe) : ubhe :=
  {| ub_m := m; ub_m_pipe := ub_m_pipe b; ub_fluid := ub_fluid b; ub_pipe := ub_pipe b; ub_soil_k := ub_soil_k b; ub_grout_k := ub_grout_k b;
     ub_h := ub_h b; ub_Rp := ub_Rp b; ub_Rf := ub_Rf b; ub_pg := ub_pg b |}.
(** the last value given in a sequence of optional arguments *)
Fixpoint latest {A} (l : list (option A)) (d : A) : A :=
  match l with [] => d | None :: r => latest r d | Some a :: r => latest r a end.
(** a sequence of calls update_thermal_resistance(m, fluid) *)
Definition updates {B} (update : option R -> option fluid -> B -> B * R) (l : list (option R * option fluid)) (b : B) : B :=
  fold_left (fun b c => fst (update (fst c) (snd c) b)) l b.
(** the single U-tube lies in its borehole, its legs apart *)
Definition fits (r_b : R) (p : pipe) : Prop :=
  0 < pp_rin p < pp_rout p /\ 0 < pp_s p /\
  exists x y, pp_pos p = [x; y] /\ dist2 x y = (pp_s p + 2 * pp_rout p) ^ 2 /\ disjoint (pp_rout p) x y /\ inside r_b (pp_rout p) x /\ inside r_b (pp_rout p) y.
