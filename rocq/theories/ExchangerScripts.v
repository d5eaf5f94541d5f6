(** The scripts in ghedt/examples/BHE, which make heat exchangers and print or collect numbers about them.  The numbers written in the scripts
    are arguments (V_flow_borehole in L/s); figures, the text of the exchanger itself (Printing.v) and the comparison with the GLHEPRO file of
    validation.py are left out.  A script that prints a number gives it as a component of its result. *)
From Coq Require Import ZArith List Bool Reals.
From Verif Require Import Base Num Ghe Bhe Equiv.
Import ListNotations.
Open Scope R_scope.

Section Scripts.
Variable h_circular : R -> R -> R -> R -> R -> R -> R -> R.
Variable h_annulus : R -> R -> R -> R -> R -> R -> R -> R -> R * R.
Variable r_conduction : R -> R -> R -> R.
Variable eff_u : pg_u -> R -> R -> R.
Variable eff_c : pg_c -> R -> R -> R.
Variable brentq : (R -> res R) -> R -> R -> list R * res R.

(** BoreholeResistance/SingleUTube.py:44, DoubleUTube.py:44, Coaxial.py:52, validation.py:65 and 130; the same line in EquivalentPipes/*.py *)
Definition m_flow_borehole (V_flow_borehole : R) (f : fluid) : R := V_flow_borehole / 1000 * fl_rho f.

(** what is printed about a U-tube exchanger: 'Reynolds number', 'Pipe resistance', 'Convection coefficient', 'Convective resistance'
    and 'Borehole thermal resistance' *)
Record printed : Type := { pr_Re : R; pr_Rp : R; pr_h : R; pr_Rconv : R; pr_Rb : R }.
(** SingleUTube.py:55-67, DoubleUTube.py:56-70 and 72-85; R_fp is the attribute of pygfunction *)
Definition print_u (f : fluid) (p : pipe) (b : ubhe) : printed :=
  {| pr_Re := compute_Reynolds (ub_m_pipe b) (pp_rin p) (pp_eps p) f; pr_Rp := ub_Rp b; pr_h := ub_h b; pr_Rconv := pg_Rfp (ub_pg b);
     pr_Rb := snd (compute_effective_borehole_resistance eff_u None None b) |}.
(** SingleUTube.py:5-73 *)
Definition single_script (V : R) (f : fluid) (r_b : R) (p : pipe) (grout_k soil_k : R) : res printed :=
  let! b := single_u_tube h_circular r_conduction (m_flow_borehole V f) f r_b p grout_k soil_k in
  Ok (print_u f p b).
(** DoubleUTube.py:5-98: what is printed for parallel and for series U-tubes *)
Definition double_script (V : R) (f : fluid) (r_b : R) (p : pipe) (grout_k soil_k : R) : res (printed * printed) :=
  let m := m_flow_borehole V f in
  let! series_tube := multiple_u_tube h_circular r_conduction series m f r_b p grout_k soil_k in
  let! parallel_tube := multiple_u_tube h_circular r_conduction parallel m f r_b p grout_k soil_k in
  Ok (print_u f p parallel_tube, print_u f p series_tube).
(** Coaxial.py:6-81: Reynolds number, convection coefficient, convective resistance, borehole resistance; pipe.r_out[1] is the outer radius of
    the outer pipe *)
Definition coaxial_script (V : R) (f : fluid) (q : coax) : R * R * R * R :=
  let b := coaxial_pipe h_circular h_annulus r_conduction (m_flow_borehole V f) f q in
  (compute_Reynolds (cb_m_pipe b) (snd (cg_outer q)) (cg_eps q) f, cb_h_a_out b, pc_Rfp (cb_pg b), snd (compute_effective_coaxial eff_c None None b)).

(** one of the dictionaries of validation.py: the lists 'V_dot', 'Rb', 'Re' *)
Record curve : Type := { cv_V : list R; cv_Rb : list R; cv_Re : list R }.
Definition no_points : curve := {| cv_V := []; cv_Rb := []; cv_Re := [] |}.
(** three appends, in the order of the script V_dot, Re, Rb *)
Definition add_point (c : curve) (V Re Rb : R) : curve := {| cv_V := cv_V c ++ [V]; cv_Rb := cv_Rb c ++ [Rb]; cv_Re := cv_Re c ++ [Re] |}.
(** validation.py:56-87: single U-tubes (pipe_s) and parallel double U-tubes (pipe_d) for each flow; the variables r_in and epsilon are
    those both pipes were made with *)
Definition validation_u (flows : list R) (f : fluid) (r_b : R) (pipe_s pipe_d : pipe) (grout_k soil_k : R) : res (curve * curve) :=
  foldM (fun '(single, double) V =>
    let m := m_flow_borehole V f in
    let! s := single_u_tube h_circular r_conduction m f r_b pipe_s grout_k soil_k in
    let! d := multiple_u_tube h_circular r_conduction parallel m f r_b pipe_d grout_k soil_k in
    Ok (add_point single V (compute_Reynolds (ub_m_pipe s) (pp_rin pipe_s) (pp_eps pipe_s) f) (snd (compute_effective_borehole_resistance eff_u None None s)),
        add_point double V (compute_Reynolds (ub_m_pipe d) (pp_rin pipe_s) (pp_eps pipe_s) f) (snd (compute_effective_borehole_resistance eff_u None None d))))
    flows (no_points, no_points).
(** validation.py:127-145: coaxial exchangers *)
Definition validation_c (flows : list R) (f : fluid) (q : coax) : curve :=
  fold_left (fun c V =>
    let b := coaxial_pipe h_circular h_annulus r_conduction (m_flow_borehole V f) f q in
    add_point c V (compute_Reynolds_concentric (cb_m_pipe b) (snd (cg_inner q)) (fst (cg_outer q)) f) (snd (compute_effective_coaxial eff_c None None b)))
    flows no_points.

(** what is printed about an equivalent exchanger: volumes and resistances of the original, then the flow, the radii, the shank spacing, the convection coefficient,
    the conductivities and the effective resistance of the equivalent *)
Record equivalent : Type := { ev_original : R * R * R * R; ev_flow : R; ev_rin : R; ev_rout : R; ev_s : R; ev_h : R; ev_kp : R; ev_kg : R; ev_Rb : R }.
(** double_to_single_u_tube.py:64-78 and coaxial_to_single_u_tube.py:73-88; grout.k is the attribute of ghedt, r_in and r_out of pygfunction *)
Definition print_equivalent (v : R * R * R * R) (e : ubhe) : equivalent :=
  {| ev_original := v; ev_flow := ub_m_pipe e * 1000 / fl_rho (ub_fluid e); ev_rin := pg_rin (ub_pg e); ev_rout := pg_rout (ub_pg e); ev_s := pp_s (ub_pipe e);
     ev_h := ub_h e; ev_kp := pp_k (ub_pipe e); ev_kg := ub_grout_k e; ev_Rb := snd (compute_effective_borehole_resistance eff_u None None e) |}.
(** double_to_single_u_tube.py:5-85; the configuration defaults to parallel *)
Definition double_to_single_script (V : R) (f : fluid) (r_b : R) (p : pipe) (grout_k soil_k : R) : res equivalent :=
  let! b := multiple_u_tube h_circular r_conduction parallel (m_flow_borehole V f) f r_b p grout_k soil_k in
  let! e := compute_equivalent h_circular r_conduction eff_u eff_c brentq (Multiple b) in
  Ok (print_equivalent (u_tube_volumes b) e).
(** coaxial_to_single_u_tube.py:5-95 *)
Definition coaxial_to_single_script (V : R) (f : fluid) (q : coax) : res equivalent :=
  let b := coaxial_pipe h_circular h_annulus r_conduction (m_flow_borehole V f) f q in
  let! e := compute_equivalent h_circular r_conduction eff_u eff_c brentq (Coaxial b) in
  Ok (print_equivalent (concentric_tube_volumes b) e).
End Scripts.
