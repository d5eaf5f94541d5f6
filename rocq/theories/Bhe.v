(** Model of ghedt/peak_load_analysis_tool/borehole_heat_exchangers.py and of Pipe in media.py.
    The pygfunction functions (film coefficients, conduction resistance of a pipe, effective borehole resistance) are
    parameters.  Not modelled: __repr__ (the Reynolds number it reports is), the division of R_f when the film
    coefficient is zero (numpy yields inf there). *)
From Coq Require Import ZArith List Bool Reals.
From Verif Require Import Base.
Import ListNotations.
Open Scope R_scope.

(** gt.media.Fluid: what is read of it *)
Record fluid : Type := { fl_mu : R; fl_rho : R; fl_k : R; fl_cp : R }.
(** media.py:34-47.  [pos] is a list of positions; n_pipes = int(len(pos) / 2) *)
Record pipe : Type := { pp_pos : list (R * R); pp_rin : R; pp_rout : R; pp_s : R; pp_eps : R; pp_k : R; pp_rhoCp : R }.
Definition n_pipes (p : pipe) : Z := Z.div (zlen (pp_pos p)) 2.

(** media.py:74-86 *)
Definition place_pipes (s r_out : R) (n : Z) : res (list (R * R)) :=
  let D_s := s / 2 + r_out in
  if (n =? 0)%Z then Err ZeroDivisionError else
  let dt := PI / IZR n in
  Ok (flat_map (fun i =>
        [(D_s * cos (2 * IZR i * dt + PI), D_s * sin (2 * IZR i * dt + PI));
         (D_s * cos (2 * IZR i * dt + PI + dt), D_s * sin (2 * IZR i * dt + PI + dt))]) (zrange 0 n)).

Inductive config : Set := series | parallel | no_config | other_config.
(** borehole_heat_exchangers.py:80-88 *)
Definition compute_mass_flow_rate_pipe (m_flow_borehole : R) (c : config) : res R :=
  match c with
  | series | no_config => Ok m_flow_borehole
  | parallel => Ok (m_flow_borehole / 2)
  | other_config => Err ValueError
  end.

(** borehole_heat_exchangers.py:431-442; the relative roughness computed there is not used *)
Definition compute_Reynolds (m_flow_pipe r_in epsilon : R) (f : fluid) : R :=
  let D := 2 * r_in in
  let V_flow := m_flow_pipe / fl_rho f in
  let A_cs := PI * r_in ^ 2 in
  let V := V_flow / A_cs in
  fl_rho f * V * D / fl_mu f.
(** borehole_heat_exchangers.py:445-457 *)
Definition compute_Reynolds_concentric (m_flow_pipe r_a_in r_a_out : R) (f : fluid) : R :=
  let D_h := 2 * (r_a_out - r_a_in) in
  let A_c := PI * (r_a_out ^ 2 - r_a_in ^ 2) in
  let V_dot := m_flow_pipe / fl_rho f in
  let V := V_dot / A_c in
  fl_rho f * V * D_h / fl_mu f.

(** what pygfunction's SingleUTube and MultipleUTube store; nPipes is 1 for the first *)
Record pg_u : Type := { pg_pos : list (R * R); pg_rin : R; pg_rout : R; pg_rb : R; pg_ks : R; pg_kg : R; pg_Rfp : R; pg_n : Z; pg_config : config }.
(** what pygfunction's Coaxial stores *)
Record pg_c : Type := { pc_rin : R * R; pc_rout : R * R; pc_rb : R; pc_ks : R; pc_kg : R; pc_Rff : R; pc_Rfp : R }.

Section Pipes.
(** convective_heat_transfer_coefficient_circular_pipe(m_flow, r_in, mu, rho, k, cp, eps) *)
Variable h_circular : R -> R -> R -> R -> R -> R -> R -> R.
(** convective_heat_transfer_coefficient_concentric_annulus(m_flow, r_a_in, r_a_out, mu, rho, k, cp, eps): inner, outer surface *)
Variable h_annulus : R -> R -> R -> R -> R -> R -> R -> R -> R * R.
(** conduction_thermal_resistance_circular_pipe(r_in, r_out, k) *)
Variable r_conduction : R -> R -> R -> R.
(** effective_borehole_thermal_resistance(m_flow_borehole, cp) *)
Variable eff_u : pg_u -> R -> R -> R.
Variable eff_c : pg_c -> R -> R -> R.

(** ** SingleUTube and MultipleUTube *)
Record ubhe : Type := {
  ub_m : R; ub_m_pipe : R; ub_fluid : fluid; ub_pipe : pipe; ub_soil_k : R; ub_grout_k : R;
  ub_h : R; ub_Rp : R; ub_Rf : R; ub_pg : pg_u }.
(** attribute assignments *)
Definition set_flow (m : R) (f : fluid) (b : ubhe) : ubhe :=
  {| ub_m := m; ub_m_pipe := ub_m_pipe b; ub_fluid := f; ub_pipe := ub_pipe b; ub_soil_k := ub_soil_k b; ub_grout_k := ub_grout_k b;
     ub_h := ub_h b; ub_Rp := ub_Rp b; ub_Rf := ub_Rf b; ub_pg := ub_pg b |}.
Definition set_pg (g : pg_u) (b : ubhe) : ubhe :=
  {| ub_m := ub_m b; ub_m_pipe := ub_m_pipe b; ub_fluid := ub_fluid b; ub_pipe := ub_pipe b; ub_soil_k := ub_soil_k b; ub_grout_k := ub_grout_k b;
     ub_h := ub_h b; ub_Rp := ub_Rp b; ub_Rf := ub_Rf b; ub_pg := g |}.
(** self.update_thermal_resistances(R_fp) of pygfunction *)
Definition set_Rfp (R_fp : R) (g : pg_u) : pg_u :=
  {| pg_pos := pg_pos g; pg_rin := pg_rin g; pg_rout := pg_rout g; pg_rb := pg_rb g; pg_ks := pg_ks g; pg_kg := pg_kg g; pg_Rfp := R_fp; pg_n := pg_n g; pg_config := pg_config g |}.

(** borehole_heat_exchangers.py:65-78 *)
Definition compute_resistances (b : ubhe) : ubhe :=
  let p := ub_pipe b in let f := ub_fluid b in
  let h := h_circular (ub_m_pipe b) (pp_rin p) (fl_mu f) (fl_rho f) (fl_k f) (fl_cp f) (pp_eps p) in
  {| ub_m := ub_m b; ub_m_pipe := ub_m_pipe b; ub_fluid := f; ub_pipe := p; ub_soil_k := ub_soil_k b; ub_grout_k := ub_grout_k b;
     ub_h := h; ub_Rp := r_conduction (pp_rin p) (pp_rout p) (pp_k p); ub_Rf := 1 / (h * 2 * PI * pp_rin p); ub_pg := ub_pg b |}.

(** borehole_heat_exchangers.py:8-29 then the pygfunction constructor called with R_f + R_p (116-123, 182-191);
    [n] is what pygfunction is told about the number of U-tubes *)
Definition make_u (c : config) (n : Z) (m : R) (f : fluid) (r_b : R) (p : pipe) (grout_k soil_k : R) : res ubhe :=
  let! m_pipe := compute_mass_flow_rate_pipe m c in
  let g := {| pg_pos := pp_pos p; pg_rin := pp_rin p; pg_rout := pp_rout p; pg_rb := r_b; pg_ks := soil_k; pg_kg := grout_k; pg_Rfp := 0; pg_n := n; pg_config := c |} in
  let b := compute_resistances {| ub_m := m; ub_m_pipe := m_pipe; ub_fluid := f; ub_pipe := p; ub_soil_k := soil_k; ub_grout_k := grout_k;
    ub_h := 0; ub_Rp := 0; ub_Rf := 0; ub_pg := g |} in
  Ok (set_pg (set_Rfp (ub_Rf b + ub_Rp b) g) b).
(** borehole_heat_exchangers.py:112-123 *)
Definition single_u_tube (m : R) (f : fluid) (r_b : R) (p : pipe) (grout_k soil_k : R) : res ubhe := make_u no_config 1 m f r_b p grout_k soil_k.
(** borehole_heat_exchangers.py:175-191; config defaults to 'parallel' *)
Definition multiple_u_tube (c : config) (m : R) (f : fluid) (r_b : R) (p : pipe) (grout_k soil_k : R) : res ubhe :=
  make_u c (n_pipes p) m f r_b p grout_k soil_k.

Definition default {A} (x : option A) (d : A) : A := match x with Some a => a | None => d end.
(** borehole_heat_exchangers.py:90-109 *)
Definition compute_effective_borehole_resistance (m : option R) (f : option fluid) (b : ubhe) : ubhe * R :=
  let m := default m (ub_m b) in let f := default f (ub_fluid b) in
  let b := set_flow m f b in
  (b, eff_u (ub_pg b) m (fl_cp f)).
(** borehole_heat_exchangers.py:140-166 (SingleUTube) *)
Definition update_single (m : option R) (f : option fluid) (b : ubhe) : ubhe * R :=
  let m := default m (ub_m b) in let f := default f (ub_fluid b) in
  let b := compute_resistances (set_flow m f b) in
  let b := set_pg (set_Rfp (ub_Rf b + ub_Rp b) (ub_pg b)) b in
  (b, eff_u (ub_pg b) m (fl_cp f)).
(** borehole_heat_exchangers.py:193-221 (MultipleUTube; the resistances are computed twice) *)
Definition update_multiple (m : option R) (f : option fluid) (b : ubhe) : ubhe * R :=
  let m := default m (ub_m b) in let f := default f (ub_fluid b) in
  let b := compute_resistances (compute_resistances (set_flow m f b)) in
  let b := set_pg (set_Rfp (ub_Rf b + ub_Rp b) (ub_pg b)) b in
  (b, eff_u (ub_pg b) m (fl_cp f)).
(** borehole_heat_exchangers.py:168-172 *)
Definition compute_convection_coefficient (m : R) (b : ubhe) : R :=
  let p := ub_pipe b in let f := ub_fluid b in h_circular m (pp_rin p) (fl_mu f) (fl_rho f) (fl_k f) (fl_cp f) (pp_eps p).
(** the Reynolds number BasePipe.__repr__ prints, borehole_heat_exchangers.py:52-53 *)
Definition reported_Reynolds (b : ubhe) : R := compute_Reynolds_concentric (ub_m_pipe b) (pp_rin (ub_pipe b)) (pp_eps (ub_pipe b)) (ub_fluid b).

(** ** CoaxialPipe *)
(** geometry and materials: pipe.r_in = (r_in_in, r_in_out) are the radii of the inner pipe, pipe.r_out of the outer pipe;
    pipe.k = (k of inner pipe, k of outer pipe) *)
Record coax : Type := { cg_inner : R * R; cg_outer : R * R; cg_eps : R; cg_k : R * R; cg_rhoCp : R; cg_rb : R; cg_grout_k : R; cg_soil_k : R }.
Record cbhe : Type := {
  cb_m : R; cb_m_pipe : R; cb_fluid : fluid; cb_geo : coax;
  cb_Rp_in : R; cb_Rp_out : R; cb_Rgrout : R; cb_h_a_in : R; cb_h_a_out : R; cb_Rf_a_in : R; cb_Rf_a_out : R; cb_h_in : R; cb_Rf_in : R;
  cb_pg : pg_c }.
(** borehole_heat_exchangers.py:336-370; [g] what pygfunction holds at that moment *)
Definition compute_resistances_c (m m_pipe : R) (f : fluid) (q : coax) (g : pg_c) : cbhe :=
  let '(r_in_in, r_in_out) := cg_inner q in let '(r_out_in, r_out_out) := cg_outer q in
  let '(h_a_in, h_a_out) := h_annulus m r_in_out r_out_in (fl_mu f) (fl_rho f) (fl_k f) (fl_cp f) (cg_eps q) in
  let h_in := h_circular m r_in_in (fl_mu f) (fl_rho f) (fl_k f) (fl_cp f) (cg_eps q) in
  {| cb_m := m; cb_m_pipe := m_pipe; cb_fluid := f; cb_geo := q;
     cb_Rp_in := r_conduction r_in_in r_in_out (fst (cg_k q)); cb_Rp_out := r_conduction r_out_in r_out_out (snd (cg_k q));
     cb_Rgrout := r_conduction r_out_out (cg_rb q) (cg_grout_k q);
     cb_h_a_in := h_a_in; cb_h_a_out := h_a_out; cb_Rf_a_in := 1 / (h_a_in * 2 * PI * r_in_out); cb_Rf_a_out := 1 / (h_a_out * 2 * PI * r_out_in);
     cb_h_in := h_in; cb_Rf_in := 1 / (h_in * 2 * PI * r_in_in); cb_pg := g |}.
Definition with_pg_c (b : cbhe) (g : pg_c) : cbhe :=
  {| cb_m := cb_m b; cb_m_pipe := cb_m_pipe b; cb_fluid := cb_fluid b; cb_geo := cb_geo b; cb_Rp_in := cb_Rp_in b; cb_Rp_out := cb_Rp_out b;
     cb_Rgrout := cb_Rgrout b; cb_h_a_in := cb_h_a_in b; cb_h_a_out := cb_h_a_out b; cb_Rf_a_in := cb_Rf_a_in b; cb_Rf_a_out := cb_Rf_a_out b;
     cb_h_in := cb_h_in b; cb_Rf_in := cb_Rf_in b; cb_pg := g |}.
Definition set_R_c (Rff Rfp : R) (g : pg_c) : pg_c :=
  {| pc_rin := pc_rin g; pc_rout := pc_rout g; pc_rb := pc_rb g; pc_ks := pc_ks g; pc_kg := pc_kg g; pc_Rff := Rff; pc_Rfp := Rfp |}.
(** borehole_heat_exchangers.py:240-276 and 373-395: pygfunction is given the inner radii of both pipes, then the outer radii of both *)
Definition coaxial_pipe (m : R) (f : fluid) (q : coax) : cbhe :=
  let g := {| pc_rin := (fst (cg_inner q), fst (cg_outer q)); pc_rout := (snd (cg_inner q), snd (cg_outer q)); pc_rb := cg_rb q; pc_ks := cg_soil_k q; pc_kg := cg_grout_k q; pc_Rff := 0; pc_Rfp := 0 |} in
  let b := compute_resistances_c m m f q g in
  with_pg_c b (set_R_c (cb_Rf_in b + cb_Rp_in b + cb_Rf_a_in b) (cb_Rp_out b + cb_Rf_a_out b) g).
(** borehole_heat_exchangers.py:397-428 *)
Definition update_coaxial (m : option R) (f : option fluid) (b : cbhe) : cbhe * R :=
  let m := default m (cb_m b) in let f := default f (cb_fluid b) in
  let b := compute_resistances_c m (cb_m_pipe b) f (cb_geo b) (cb_pg b) in
  let b := with_pg_c b (set_R_c (cb_Rf_in b + cb_Rp_in b + cb_Rf_a_in b) (cb_Rp_out b + cb_Rf_a_out b) (cb_pg b)) in
  (b, eff_c (cb_pg b) m (fl_cp f)).
(** borehole_heat_exchangers.py:90-109, inherited *)
Definition compute_effective_coaxial (m : option R) (f : option fluid) (b : cbhe) : cbhe * R :=
  let m := default m (cb_m b) in let f := default f (cb_fluid b) in
  ({| cb_m := m; cb_m_pipe := cb_m_pipe b; cb_fluid := f; cb_geo := cb_geo b; cb_Rp_in := cb_Rp_in b; cb_Rp_out := cb_Rp_out b;
     cb_Rgrout := cb_Rgrout b; cb_h_a_in := cb_h_a_in b; cb_h_a_out := cb_h_a_out b; cb_Rf_a_in := cb_Rf_a_in b; cb_Rf_a_out := cb_Rf_a_out b;
     cb_h_in := cb_h_in b; cb_Rf_in := cb_Rf_in b; cb_pg := cb_pg b |}, eff_c (cb_pg b) m (fl_cp f)).
End Pipes.
