(** Model of one ground heat exchanger as an object: construction, simulation, g-functions before sizing and the
    objective of sizing (ghedt/ground_heat_exchangers.py), HybridLoad.__init__ (ground_loads.py:374-421) and the
    evaluation of a field by the search (search_routines.py:72-109).  It composes the models of the parts: Bhe, Equiv,
    Radial, Loads, GFun, Ghe.  Over R, because the parts use log and sqrt.
    Simplifications: the attributes that are only reported (V_flow_system, V_flow_borehole, COP) are left out; when the
    short-time calculation raises, the attributes it has reassigned by then are not recorded; np.log of a negative time
    difference (nan, no exception) is treated like log(0) (minus infinity, ValueError). *)
From Coq Require Import ZArith List Bool Reals.
From Verif Require Import Base Num Utilities Loads Ghe GFun Radial Bhe Equiv Export.
Import ListNotations.
Open Scope R_scope.

(** the class given as bhe_object, with the pipe it is built from; CoaxialPipe: radii of the inner and of the outer pipe,
    roughness, conductivities and heat capacity *)
Inductive bhe_class : Type :=
| SingleUTube (p : pipe)
| MultipleUTube (p : pipe)
| CoaxialPipe (inner outer : R * R) (eps : R) (k : R * R) (rhoCp : R).

(** what stays constant during a design: borehole (radius, depth), fluid, grout, soil, simulation parameters and hourly
    ground loads (extraction positive, W) *)
Record settings : Type := {
  st_class : bhe_class; st_fluid : fluid; st_rb : R; st_D : R; st_grout_k : R; st_grout_rhoCp : R;
  st_soil_k : R; st_soil_rhoCp : R; st_ugt : R;
  st_start : Z; st_end : Z; st_max_EFT : R; st_min_EFT : R; st_max_H : R; st_min_H : R; st_loads : list R }.

(** g(np.log(d * 3600. / ts)) for the interpolant of the points (x, y): ground_heat_exchangers.py:163-165 and
    ground_loads.py:309-310; interp1d raises ValueError at minus infinity *)
Definition g_lag (x y : list R) (ts d : R) : res R :=
  if Rle_dec d 0 then Err ValueError else interp1d x y (ln (d * 3600 / ts)).

(** scipy.optimize.brentq as a dialogue: it asks for values of the objective, one after the other, and ends with its result
    (RuntimeError when it does not converge) *)
Inductive dialogue : Type :=
| Ask (x : R) (next : R -> dialogue)
| Answer (r : res R).

Section System.
(** pygfunction: film coefficients, wall resistance, effective borehole resistance (which reads the length of the borehole, the
    first argument) *)
Variable h_circular : R -> R -> R -> R -> R -> R -> R -> R.
Variable h_annulus : R -> R -> R -> R -> R -> R -> R -> R -> R * R.
Variable r_conduction : R -> R -> R -> R.
Variable eff_u : R -> pg_u -> R -> R -> R.
Variable eff_c : R -> pg_c -> R -> R -> R.
(** scipy.optimize.brentq, scipy.linalg.lapack.dgtsv, the interpolants over the height *)
Variable brentq : (R -> res R) -> R -> R -> list R * res R.
Variable solver : list R -> list R -> list R -> list R -> list R.
Variable interp : ikind -> list (R * R) -> R -> R.
(** calculate_g_function (gfunction.py:9-67): mass flow, coordinates, height, depth and radius to the g values *)
Variable field_response : R -> list (R * R) -> R -> R -> R -> res (list R).

Variable st : settings.

(** bhe_function(m_flow_borehole, fluid, borehole, pipe, grout, soil), ground_heat_exchangers.py:31-32 *)
Definition make_bhe (m : R) : res bhe :=
  match st_class st with
  | SingleUTube p => let! b := single_u_tube h_circular r_conduction m (st_fluid st) (st_rb st) p (st_grout_k st) (st_soil_k st) in Ok (Single b)
  | MultipleUTube p => let! b := multiple_u_tube h_circular r_conduction parallel m (st_fluid st) (st_rb st) p (st_grout_k st) (st_soil_k st) in Ok (Multiple b)
  | CoaxialPipe inner outer eps k rhoCp =>
      Ok (Coaxial (coaxial_pipe h_circular h_annulus r_conduction m (st_fluid st)
            {| cg_inner := inner; cg_outer := outer; cg_eps := eps; cg_k := k; cg_rhoCp := rhoCp;
               cg_rb := st_rb st; cg_grout_k := st_grout_k st; cg_soil_k := st_soil_k st |}))
  end.

(** self.bhe.update_thermal_resistance(), line 287; [H] is bhe.b.H *)
Definition update_bhe (H : R) (b : bhe) : bhe :=
  match b with
  | Single b => Single (fst (update_single h_circular r_conduction (eff_u H) None None b))
  | Multiple b => Multiple (fst (update_multiple h_circular r_conduction (eff_u H) None None b))
  | Coaxial b => Coaxial (fst (update_coaxial h_circular h_annulus r_conduction (eff_c H) None None b))
  | OtherBhe => OtherBhe
  end.
(** self.bhe.compute_effective_borehole_resistance() and self.bhe.m_flow_borehole (lines 156-157); an OtherBhe has been
    rejected by compute_equivalent before *)
Definition effective_resistance (H : R) (b : bhe) : R :=
  match b with
  | Single b | Multiple b => snd (compute_effective_borehole_resistance (eff_u H) None None b)
  | Coaxial b => snd (compute_effective_coaxial (eff_c H) None None b)
  | OtherBhe => 0
  end.
Definition mass_flow (b : bhe) : R := match b with Single b | Multiple b => ub_m b | Coaxial b => cb_m b | OtherBhe => 0 end.

(** what radial_numerical_borehole.py reads of the equivalent single U-tube (see Radial.v); the equivalent borehole is a copy of
    the borehole with another radius, grout and soil are copies *)
Definition utube_of (H : R) (e : ubhe) : utube :=
  {| u_rb := pg_rb (ub_pg e); u_H := H; u_rin := pp_rin (ub_pipe e); u_rout := pp_rout (ub_pipe e); u_pipe_rhoCp := pp_rhoCp (ub_pipe e);
     u_fluid_rho := fl_rho (ub_fluid e); u_fluid_cp := fl_cp (ub_fluid e); u_grout_rhoCp := st_grout_rhoCp st;
     u_soil_k := st_soil_k st; u_k_s := pg_ks (ub_pg e); u_soil_rhoCp := st_soil_rhoCp st;
     u_Rf := ub_Rf e; u_Rp := ub_Rp e; u_Rb := snd (compute_effective_borehole_resistance (eff_u H) None None e) |}.
(** enough iterations for the loop of calc_sts_g_functions (System_fuel in SystemProofs.v) *)
Definition short_time_fuel (u : utube) : nat := S (Z.to_nat (up (calc_time_in_sec u / 120))).
(** radial_numerical.calc_sts_g_functions(bhe_eq): t_s, lntts and g afterwards *)
Definition short_time (H : R) (e : ubhe) : res (R * (list R * list R)) :=
  let u := utube_of H e in
  let! r := calc_sts_g_functions (short_time_fuel u) solver u None false in
  Ok (t_s u, r).

(** the attributes of a GHE: B_spacing, nbh, bhe.b.H, bhe, bhe_eq, radial_numerical (t_s, lntts, g), GFunction, hybrid_load
    (load, hour), (HPEFT, dTb) *)
Record ghe : Type := {
  gh_B : R; gh_nbh : Z; gh_H : R; gh_bhe : bhe; gh_eq : ubhe; gh_ts : R; gh_sts : list R * list R; gh_gf : @gfunction R;
  gh_load : list R; gh_hour : list R; gh_results : list R * list R }.
Definition with_H (s : ghe) (H : R) : ghe :=
  {| gh_B := gh_B s; gh_nbh := gh_nbh s; gh_H := H; gh_bhe := gh_bhe s; gh_eq := gh_eq s; gh_ts := gh_ts s; gh_sts := gh_sts s;
     gh_gf := gh_gf s; gh_load := gh_load s; gh_hour := gh_hour s; gh_results := gh_results s |}.
Definition with_bhe (s : ghe) (b : bhe) : ghe :=
  {| gh_B := gh_B s; gh_nbh := gh_nbh s; gh_H := gh_H s; gh_bhe := b; gh_eq := gh_eq s; gh_ts := gh_ts s; gh_sts := gh_sts s;
     gh_gf := gh_gf s; gh_load := gh_load s; gh_hour := gh_hour s; gh_results := gh_results s |}.
Definition with_eq (s : ghe) (e : ubhe) : ghe :=
  {| gh_B := gh_B s; gh_nbh := gh_nbh s; gh_H := gh_H s; gh_bhe := gh_bhe s; gh_eq := e; gh_ts := gh_ts s; gh_sts := gh_sts s;
     gh_gf := gh_gf s; gh_load := gh_load s; gh_hour := gh_hour s; gh_results := gh_results s |}.
Definition with_short_time (s : ghe) (r : R * (list R * list R)) : ghe :=
  {| gh_B := gh_B s; gh_nbh := gh_nbh s; gh_H := gh_H s; gh_bhe := gh_bhe s; gh_eq := gh_eq s; gh_ts := fst r; gh_sts := snd r;
     gh_gf := gh_gf s; gh_load := gh_load s; gh_hour := gh_hour s; gh_results := gh_results s |}.
Definition with_gf (s : ghe) (g : @gfunction R) : ghe :=
  {| gh_B := gh_B s; gh_nbh := gh_nbh s; gh_H := gh_H s; gh_bhe := gh_bhe s; gh_eq := gh_eq s; gh_ts := gh_ts s; gh_sts := gh_sts s;
     gh_gf := g; gh_load := gh_load s; gh_hour := gh_hour s; gh_results := gh_results s |}.
Definition with_results (s : ghe) (r : list R * list R) : ghe :=
  {| gh_B := gh_B s; gh_nbh := gh_nbh s; gh_H := gh_H s; gh_bhe := gh_bhe s; gh_eq := gh_eq s; gh_ts := gh_ts s; gh_sts := gh_sts s;
     gh_gf := gh_gf s; gh_load := gh_load s; gh_hour := gh_hour s; gh_results := r |}.

(** ground_loads.py:374-421 (year = 2019): the load sequence (load, hour) of hourly rejection and extraction in kW *)
Definition hybrid_load (H : R) (e : ubhe) (ts : R) (sts : list R * list R) (rejection extraction : list R) : res (list R * list R) :=
  let g_sts := g_lag (fst sts) (snd sts) ts in
  let two_pi_k := 2 * PI * st_soil_k st in
  let Rb := snd (compute_effective_borehole_resistance (eff_u H) None None e) in
  let! cl := make_loads g_sts two_pi_k Rb 2019 rejection in
  let! hl := make_loads g_sts two_pi_k Rb 2019 extraction in
  let! p := process_monthly_loads cl hl (st_start st) (st_end st) in
  Ok (fst p).

(** ground_heat_exchangers.py:14-47 and 205-234; [H] is borehole.H *)
Definition make_ghe (V_flow_system B H : R) (gf : @gfunction R) : res ghe :=
  let nbh := zlen (gf_locations gf) in
  let! fl := ghe_flow V_flow_system (fl_rho (st_fluid st)) nbh in
  let! b := make_bhe (snd fl) in
  let! e := compute_equivalent h_circular r_conduction (eff_u H) (eff_c H) brentq b in
  let! r := short_time H e in
  let! hourly := split_heat_and_cool (st_loads st) unit_W in
  let! lh := hybrid_load H e (fst r) (snd r) (fst hourly) (snd hourly) in
  Ok {| gh_B := B; gh_nbh := nbh; gh_H := H; gh_bhe := b; gh_eq := e; gh_ts := fst r; gh_sts := snd r; gh_gf := gf;
        gh_load := fst lh; gh_hour := snd lh; gh_results := ([], []) |}.

(** ground_heat_exchangers.py:283-322 with 135-178: the object afterwards and (maximum, minimum); an exception leaves the object
    as it is then *)
Definition ghe_simulate (m : method) (s : ghe) : ghe * res (R * R) :=
  let H := gh_H s in
  match pydiv (gh_B s) H with
  | Err e => (s, Err e)
  | Ok B_over_H =>
      let s := with_bhe s (update_bhe H (gh_bhe s)) in
      match compute_equivalent h_circular r_conduction (eff_u H) (eff_c H) brentq (gh_bhe s) with
      | Err e => (s, Err e)
      | Ok e =>
          let s := with_eq s e in
          match short_time H e with
          | Err e => (s, Err e)
          | Ok r =>
              let s := with_short_time s r in
              let (t, g) := grab_g_function interp (gh_gf s) B_over_H (st_rb st) (fst (gh_sts s)) (snd (gh_sts s)) in
              let s := with_gf s (with_table (gh_gf s) t) in
              match g with
              | Err e => (s, Err e)
              | Ok c =>
                  match simulate (g_lag (fst c) (snd c) (gh_ts s)) (IZR (gh_nbh s)) H (2 * PI * st_soil_k st) (st_ugt st)
                          (effective_resistance H (gh_bhe s)) (mass_flow (gh_bhe s)) (fl_cp (st_fluid st))
                          m (st_start st) (st_end st) (st_loads st) (gh_load s) (gh_hour s) with
                  | Err e => (s, Err e)
                  | Ok (T, D, mx, mn) => (with_results s (T, D), Ok (mx, mn))
                  end
              end
          end
      end
  end.

(** self.cost(max_HP_EFT, min_HP_EFT) of a simulation *)
Definition excess (r : res (R * R)) : res R :=
  let! x := r in Ok (cost (st_max_EFT st) (st_min_EFT st) (fst x) (snd x)).

(** the objective of sizing, ground_heat_exchangers.py:327-331 *)
Definition local_objective (m : method) (s : ghe) (H : R) : ghe * res R :=
  let (s, r) := ghe_simulate m (with_H s H) in (s, excess r).

(** ground_heat_exchangers.py:180-201 *)
Definition compute_g_functions (s : ghe) : res ghe :=
  let! H_values := g_function_heights (st_min_H st) (st_max_H st) in
  let n := zlen H_values in
  let! gf := compute_live_g_function (field_response (mass_flow (gh_bhe s)) (gf_locations (gh_gf s))) (gh_B s) H_values
               (py_repeat (st_rb st) n) (py_repeat (st_D st) n) (gf_log_time (gh_gf s)) (gf_locations (gh_gf s)) in
  Ok (with_gf s gf).

(** scipy.optimize.brentq(objective, lower, upper) *)
Variable brentq_dialogue : R -> R -> dialogue.
(** the objective is asked; it changes the object *)
Fixpoint converse (m : method) (d : dialogue) (s : ghe) : ghe * res R :=
  match d with
  | Answer r => (s, r)
  | Ask x next =>
      let (s, v) := local_objective m s x in
      match v with Err e => (s, Err e) | Ok y => converse m (next y) s end
  end.
(** ground_heat_exchangers.py:324-352 with equivalance.py:37-54; the value of solve_root is discarded, the warnings are left out *)
Definition ghe_size (m : method) (s : ghe) : ghe * res unit :=
  let lower := st_min_H st in
  let upper := st_max_H st in
  match pydiv (upper + lower) 2 with
  | Err e => (s, Err e)
  | Ok guess =>
      let (s, a) := local_objective m (with_H s guess) lower in
      match a with
      | Err e => (s, Err e)
      | Ok minus =>
          let (s, b) := local_objective m s upper in
          match b with
          | Err e => (s, Err e)
          | Ok plus =>
              match (let! a := sign_of minus in let! b := sign_of plus in Ok (a, b)) with
              | Err e => (s, Err e)
              | Ok (minus_sign, plus_sign) =>
                  if negb (plus_sign =? minus_sign)%Z then
                    let (s, r) := converse m (brentq_dialogue lower upper) s in
                    (s, match r with Ok _ => Ok tt | Err e => Err e end)
                  else (s, Ok tt)
              end
          end
      end
  end.

(** ** the search's view of a field *)
(** flow convention, flow and the times of the g-function *)
Variable flow : flow_kind.
Variable V_flow : R.
Variable log_time : list R.

(** search_routines.py:72-96 *)
Definition initialize_ghe (coordinates : list (R * R)) (H : R) : res ghe :=
  let! fl := retrieve_flow flow V_flow (fl_rho (st_fluid st)) (zlen coordinates) in
  let! B := borehole_spacing (st_rb st) coordinates in
  let! gf := compute_live_g_function (field_response (snd fl) coordinates) B [H] [st_rb st] [st_D st] log_time coordinates in
  make_ghe (fst fl) B H gf.
(** search_routines.py:98-109 *)
Definition calculate_excess (m : method) (coordinates : list (R * R)) (H : R) : res R :=
  let! s := initialize_ghe coordinates H in
  excess (snd (ghe_simulate m s)).

End System.
