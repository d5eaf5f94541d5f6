(** Model of ghedt/peak_load_analysis_tool/equivalance.py (solve_root is in Ghe.v).
    Simplifications: divisions and roots are those of R (numpy gives inf or nan where they are undefined); h_prime (line 65),
    V_grout (lines 128, 144) are computed but not used by the code and left out. *)
From Coq Require Import ZArith List Bool Reals.
From Verif Require Import Base Num Ghe Bhe.
Import ListNotations.
Open Scope R_scope.

(** equivalance.py:118-132; result (V_fluid, V_pipe, R_conv, R_pipe) *)
Definition u_tube_volumes (b : ubhe) : R * R * R * R :=
  let g := ub_pg b in
  let n := IZR (pg_n g * 2) in
  let A_s := n * PI * (pg_rin g * 2) ^ 2 in
  let R_conv := 1 / (ub_h b * A_s) in
  let V_fluid := n * PI * pg_rin g ^ 2 in
  let V_pipe := n * PI * pg_rout g ^ 2 - V_fluid in
  let R_pipe := ln (pg_rout g / pg_rin g) / (n * 2 * PI * pp_k (ub_pipe b)) in
  (V_fluid, V_pipe, R_conv, R_pipe).
(** equivalance.py:135-148 *)
Definition concentric_tube_volumes (b : cbhe) : R * R * R * R :=
  let '(r_in_in, r_in_out) := cg_inner (cb_geo b) in
  let '(r_out_in, r_out_out) := cg_outer (cb_geo b) in
  let V_fluid := PI * (r_in_in ^ 2 + r_out_in ^ 2 - r_in_out ^ 2) in
  let V_pipe := PI * (r_in_out ^ 2 - r_in_in ^ 2 + r_out_out ^ 2 - r_out_in ^ 2) in
  let A_s := PI * 2 * r_out_in in
  let R_conv := 1 / (cb_h_a_in b * A_s) in
  let R_pipe := ln (r_out_out / r_out_in) / (2 * PI * snd (cg_k (cb_geo b))) in
  (V_fluid, V_pipe, R_conv, R_pipe).

(** equivalance.py:62-63 *)
Definition r_i_prime (V_fluid : R) : R := sqrt (V_fluid / (2 * PI)).
Definition r_o_prime (V_fluid V_pipe : R) : R := sqrt ((V_fluid + V_pipe) / (2 * PI)).
(** equivalance.py:66 *)
Definition k_p_prime (V_fluid V_pipe R_pipe : R) : R := ln (r_o_prime V_fluid V_pipe / r_i_prime V_fluid) / (2 * PI * 2 * R_pipe).
(** equivalance.py:70-78; result (borehole radius, shank spacing) *)
Definition fit_borehole (r_b r_o : R) : R * R :=
  let spacing := r_b * 2 - 2 * r_o * 2 in
  if Rle_dec spacing 0 then
    let r_b := r_b - spacing in
    let spacing := r_b * 2 / 10 in
    (r_b + spacing, spacing / 3)
  else (r_b, spacing / 3).

Section Equivalent.
Variable h_circular : R -> R -> R -> R -> R -> R -> R -> R.
Variable r_conduction : R -> R -> R -> R.
Variable eff_u : pg_u -> R -> R -> R.
Variable eff_c : pg_c -> R -> R -> R.
(** scipy.optimize.brentq: the points it evaluates, then its value *)
Variable brentq : (R -> res R) -> R -> R -> list R * res R.

(** eq_single_u_tube.pipe.k = k *)
Definition set_pipe_k (k : R) (b : ubhe) : ubhe :=
  let p := ub_pipe b in
  {| ub_m := ub_m b; ub_m_pipe := ub_m_pipe b; ub_fluid := ub_fluid b;
     ub_pipe := {| pp_pos := pp_pos p; pp_rin := pp_rin p; pp_rout := pp_rout p; pp_s := pp_s p; pp_eps := pp_eps p; pp_k := k; pp_rhoCp := pp_rhoCp p |};
     ub_soil_k := ub_soil_k b; ub_grout_k := ub_grout_k b; ub_h := ub_h b; ub_Rp := ub_Rp b; ub_Rf := ub_Rf b; ub_pg := ub_pg b |}.
(** new_tube.k_g = k; new_tube.grout.k = k *)
Definition set_grout_k (k : R) (b : ubhe) : ubhe :=
  let g := ub_pg b in
  {| ub_m := ub_m b; ub_m_pipe := ub_m_pipe b; ub_fluid := ub_fluid b; ub_pipe := ub_pipe b; ub_soil_k := ub_soil_k b; ub_grout_k := k;
     ub_h := ub_h b; ub_Rp := ub_Rp b; ub_Rf := ub_Rf b;
     ub_pg := {| pg_pos := pg_pos g; pg_rin := pg_rin g; pg_rout := pg_rout g; pg_rb := pg_rb g; pg_ks := pg_ks g; pg_kg := k; pg_Rfp := pg_Rfp g; pg_n := pg_n g; pg_config := pg_config g |} |}.
(** the state an objective leaves: assignment, then update_thermal_resistance() *)
Definition try_pipe_k (b : ubhe) (k : R) : ubhe := fst (update_single h_circular r_conduction eff_u None None (set_pipe_k k b)).
Definition try_grout_k (b : ubhe) (k : R) : ubhe := fst (update_single h_circular r_conduction eff_u None None (set_grout_k k b)).

(** equivalance.py:99-102; the value does not depend on the points tried before (objective_history in EquivProofs.v) *)
Definition objective_pipe_conductivity (b : ubhe) (target k : R) : res R := Ok (pg_Rfp (ub_pg (try_pipe_k b k)) - target).
(** equivalance.py:57-115.  [r_b], [eps], [rhoCp], [m], [f], [grout_k], [soil_k] are copied from the original; the value of solve_root
    is not used, the state is that of the last point tried *)
Definition equivalent_single_u_tube (r_b eps rhoCp m : R) (f : fluid) (grout_k soil_k V_fluid V_pipe R_conv R_pipe : R) : res ubhe :=
  let r_i := r_i_prime V_fluid in
  let r_o := r_o_prime V_fluid V_pipe in
  let '(r_b, s) := fit_borehole r_b r_o in
  let! pos := place_pipes s r_o 1 in
  let p := {| pp_pos := pos; pp_rin := r_i; pp_rout := r_o; pp_s := s; pp_eps := eps; pp_k := k_p_prime V_fluid V_pipe R_pipe; pp_rhoCp := rhoCp |} in
  let! b := single_u_tube h_circular r_conduction m f r_b p grout_k soil_k in
  let k := pp_k (ub_pipe b) in
  let (pts, r) := solve_root brentq k (objective_pipe_conductivity b (R_conv + R_pipe)) (Some (k / 100)) (Some (k * 10)) in
  let! _ := r in
  Ok (fst (update_single h_circular r_conduction eff_u None None (fold_left try_pipe_k pts b))).

(** equivalance.py:155-165; [Rb] is tube_ref.compute_effective_borehole_resistance() *)
Definition objective_resistance (Rb : R) (b : ubhe) (k : R) : res R :=
  Ok (Rb - snd (update_single h_circular r_conduction eff_u None None (set_grout_k k b))).
(** equivalance.py:151-177 *)
Definition match_effective_borehole_resistance (Rb : R) (b : ubhe) : res ubhe :=
  let (pts, r) := solve_root brentq (ub_grout_k b) (objective_resistance Rb b) (Some (1 / 100)) (Some 7) in
  let! k := r in
  Ok (try_grout_k (fold_left try_grout_k pts b) k).

(** equivalance.py:180-193 *)
Definition multiple_to_single (b : ubhe) : res ubhe :=
  let '(V_fluid, V_pipe, R_conv, R_pipe) := u_tube_volumes b in
  let! e := equivalent_single_u_tube (pg_rb (ub_pg b)) (pp_eps (ub_pipe b)) (pp_rhoCp (ub_pipe b)) (ub_m b) (ub_fluid b) (ub_grout_k b) (ub_soil_k b) V_fluid V_pipe R_conv R_pipe in
  match_effective_borehole_resistance (snd (compute_effective_borehole_resistance eff_u None None b)) e.
(** equivalance.py:196-207 *)
Definition coaxial_to_single (b : cbhe) : res ubhe :=
  let '(V_fluid, V_pipe, R_conv, R_pipe) := concentric_tube_volumes b in
  let q := cb_geo b in
  let! e := equivalent_single_u_tube (cg_rb q) (cg_eps q) (cg_rhoCp q) (cb_m b) (cb_fluid b) (cg_grout_k q) (cg_soil_k q) V_fluid V_pipe R_conv R_pipe in
  match_effective_borehole_resistance (snd (compute_effective_coaxial eff_c None None b)) e.

Inductive bhe : Type := Single (b : ubhe) | Multiple (b : ubhe) | Coaxial (b : cbhe) | OtherBhe.
(** equivalance.py:9-20 *)
Definition compute_equivalent (x : bhe) : res ubhe :=
  match x with
  | Single b => Ok b
  | Multiple b => multiple_to_single b
  | Coaxial b => coaxial_to_single b
  | OtherBhe => Err ValueError
  end.
End Equivalent.
